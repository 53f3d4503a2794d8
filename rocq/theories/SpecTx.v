(** SpecTx.v -- transactions, receive windows and the radio, as seen from the
    calls made and the events observed. *)
From Verif Require Export SpecWin.

(** radio settings of LoRaWAN data rate [dr] (DR0 = SF12 ... DR5 = SF7, 125 kHz;
    enumerators of enum uwan_sf / uwan_bw), CR 4/5, preamble 8, CRC, explicit header *)
Definition lora (dr : Z) (iq : bool) : params := Mk_params (dr_sf dr) 0 0 8 true iq false.

Definition number {A} (l : list A) : Z := Z.of_nat (length l).

(** ** The transaction, from the calls and transmissions so far *)
Inductive phase := P_off | P_idle | P_tx | P_rx1 | P_rx2.
Definition phase_step (p : phase) (t : entry) : phase :=
  match t with
  | (OInit _, _, _) => P_idle
  | (OIrq m, _, _) =>
      let timeout := Z.testbit m 0 in let rx_done := Z.testbit m 1 in let tx_done := Z.testbit m 2 in
      match p with
      | P_tx => if tx_done then P_rx1 else P_tx
      | P_rx1 => if timeout then P_rx2 else if rx_done then P_idle else P_rx1
      | P_rx2 => if timeout || rx_done then P_idle else P_rx2
      | _ => p
      end
  | (_, _, es) => match tx_frames es with [] => p | _ :: _ => P_tx end
  end.
Definition phase_of (tr : list entry) : phase := fold_left phase_step tr P_off.

(** ** The radio, from the calls made to it *)
Record tuning := Mk_tuning {
  t_freq : Z;        (* frequency last set *)
  t_par : params;    (* parameters last set *)
  t_up_freq : Z;     (* frequency of the last transmission *)
  t_up_par : params  (* its parameters *)
}.
Definition tune_step (x : tuning) (e : ev) : tuning :=
  match e with
  | RSetFreq f => Mk_tuning f (t_par x) (t_up_freq x) (t_up_par x)
  | RSetup p => Mk_tuning (t_freq x) p (t_up_freq x) (t_up_par x)
  | RTx _ => Mk_tuning (t_freq x) (t_par x) (t_freq x) (t_par x)
  | _ => x
  end.
Definition no_params : params := Mk_params 0 0 0 0 false false false.
Definition radio (h : list ev) : tuning := fold_left tune_step h (Mk_tuning 0 no_params 0 no_params).

Definition timers (es : list ev) : list (timer_id * Z) :=
  flat_map (fun e => match e with TStart t ms => [(t, ms)] | _ => [] end) es.
Definition starts_rx (es : list ev) : bool := existsb (fun e => match e with RRx _ _ _ => true | _ => false end) es.

(** ** What the outside still owes the stack: running timers and the operation
    the radio was asked for *)
Inductive radio_op := Op_tx | Op_rx.
Record due := Mk_due { due_t1 : bool; due_t2 : bool; due_radio : option radio_op }.
Definition set_timer (t : timer_id) (b : bool) (x : due) : due :=
  match t with TIMER_RX1 => Mk_due b (due_t2 x) (due_radio x) | TIMER_RX2 => Mk_due (due_t1 x) b (due_radio x) end.
Definition due_op (x : due) (o : op) : due :=
  match o with
  | OTimer t => set_timer t false x
  | OIrq _ => Mk_due (due_t1 x) (due_t2 x) None
  | _ => x
  end.
Definition due_ev (x : due) (e : ev) : due :=
  match e with
  | TStart t _ => set_timer t true x
  | TStop t => set_timer t false x
  | RTx _ => Mk_due (due_t1 x) (due_t2 x) (Some Op_tx)
  | RRx _ _ _ => Mk_due (due_t1 x) (due_t2 x) (Some Op_rx)
  | RSleep => Mk_due (due_t1 x) (due_t2 x) None
  | _ => x
  end.
Definition due_step (x : due) (t : entry) : due := fold_left due_ev (snd t) (due_op x (fst (fst t))).
Definition nothing : due := Mk_due false false None.
Definition due_of (tr : list entry) : due := fold_left due_step tr nothing.
(** only running timers fire, only a requested operation is completed, and the
    stack is not initialised again while something is in flight *)
Definition owed (x : due) (o : op) : Prop :=
  match o with
  | OInit _ => x = nothing
  | OTimer TIMER_RX1 => due_t1 x = true
  | OTimer TIMER_RX2 => due_t2 x = true
  | OIrq m => match due_radio x with
              | Some Op_tx => Z.testbit m 2 = true
              | Some Op_rx => Z.testbit m 0 = true \/ Z.testbit m 1 = true
              | None => False
              end
  | _ => True
  end.
Definition is_event (o : op) : bool := match o with OTimer _ | OIrq _ => true | _ => false end.
(** every event of a run was owed at the time *)
Fixpoint fair (x : due) (tr : list entry) : Prop :=
  match tr with [] => True | t :: r => owed x (fst (fst t)) /\ fair (due_step x t) r end.
(** the RX2 timer fires after the end of the RX1 window *)
Definition orderly (p : phase) (o : op) : Prop := match o with OTimer TIMER_RX2 => p = P_rx2 | _ => True end.
Fixpoint in_order (p : phase) (tr : list entry) : Prop :=
  match tr with [] => True | t :: r => orderly p (fst (fst t)) /\ in_order (phase_step p t) r end.
