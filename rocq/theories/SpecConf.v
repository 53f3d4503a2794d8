(** SpecConf.v -- what LoRaWAN 1.0.2 asks of the answers to MAC commands (chapter 5),
    of the acknowledgement of confirmed uplinks and of the duty cycle. *)
From Verif Require Export SpecCs SpecRep.

(** ** Answers *)
(** payload size of a command sent by the device, LoRaWAN 1.0.2 table 4 *)
Definition answer_size (cid : Z) : option nat :=
  if cid =? 2 then Some 0%nat else if cid =? 3 then Some 1%nat else if cid =? 4 then Some 0%nat
  else if cid =? 5 then Some 1%nat else if cid =? 6 then Some 2%nat else if cid =? 7 then Some 1%nat
  else if cid =? 8 then Some 0%nat else if cid =? 9 then Some 0%nat else if cid =? 10 then Some 1%nat
  else if cid =? 13 then Some 0%nat else None.
(** the answers and requests in the FOpts of an uplink, as the server reads them *)
Fixpoint answers_in (fuel : nat) (l : list Z) : list (list Z) :=
  match fuel, l with
  | S n, cid :: r => match answer_size cid with
                     | Some k => (cid :: firstn k r) :: answers_in n (skipn k r)
                     | None => []
                     end
  | _, _ => []
  end.
Definition answers (f : list Z) : list (list Z) := answers_in (length (fr_fopts f)) (fr_fopts f).
(** [f] answers a command [cid] *)
Definition answers_cmd (cid : Z) (f : list Z) : Prop := exists a, In (cid :: a) (answers f).
(** 5.4, 5.7: the answers to RXParamSetupReq and RXTimingSetupReq are sent in all
    uplinks until a class A downlink is received *)
Inductive rx_request : list Z -> Z -> Prop :=
| Rq_param s f0 f1 f2 : rx_request [5; s; f0; f1; f2] 5
| Rq_timing d : rx_request [8; d] 8.
(** no downlink was received *)
Definition no_downlink (t : entry) : Prop := forall ty v, ~ In (ERR_NO, ty, v) (callbacks (snd t)).

(** ** What the server assumes about the device *)
(** the answer a command asks for: identifier and payload size *)
Definition asks (c : mac_cmd) : option (Z * nat) :=
  match c with
  | LinkADRReq _ _ _ _ _ => Some (3, 1%nat)
  | DutyCycleReq _ => Some (4, 0%nat)
  | RXParamSetupReq _ _ _ => Some (5, 1%nat)
  | DevStatusReq => Some (6, 2%nat)
  | NewChannelReq _ _ _ => Some (7, 1%nat)
  | RXTimingSetupReq _ => Some (8, 0%nat)
  | LinkCheckAns _ _ | DeviceTimeAns _ _ | TXParamSetupReq | DlChannelReq => None
  end.
Definition reply (c : mac_cmd) (a : list Z) : Prop :=
  match asks c with
  | Some (cid, n) => exists p, a = cid :: p /\ length p = n
  | None => a = []
  end.
Definition reply_size (c : mac_cmd) : Z := match asks c with Some (_, n) => 1 + Z.of_nat n | None => 0 end.
Fixpoint reply_sizes (cs : list mac_cmd) : Z := match cs with [] => 0 | c :: cs' => reply_size c + reply_sizes cs' end.
(** the device without its answer queue *)
Definition conf (d : dev) : dev := Mk_dev (v_table d) (v_dr d) (v_power d) (v_nb d) (v_rx1_off d) (v_rx2_freq d) (v_rx2_dr d) (v_rx1_delay d) [].
(** a request is in force iff the answer acknowledges every part of it ([nb0]: what
    NbTrans = 0 stands for) *)
Definition mirror (nb0 : Z) (d : dev) (ca : mac_cmd * list Z) : dev :=
  match ca with
  | (LinkADRReq dr power mask _ nb, [3; 7]) =>
      Mk_dev (mask_apply mask (v_table d)) dr power (if nb =? 0 then nb0 else nb) (v_rx1_off d) (v_rx2_freq d) (v_rx2_dr d) (v_rx1_delay d) (v_queue d)
  | (RXParamSetupReq off dr freq, [5; 7]) =>
      Mk_dev (v_table d) (v_dr d) (v_power d) (v_nb d) off freq dr (v_rx1_delay d) (v_queue d)
  | (NewChannelReq i freq _, [7; 3]) =>
      Mk_dev (upd (Z.to_nat i) (freq, true) (v_table d)) (v_dr d) (v_power d) (v_nb d) (v_rx1_off d) (v_rx2_freq d) (v_rx2_dr d) (v_rx1_delay d) (v_queue d)
  | (RXTimingSetupReq del, [8]) =>
      Mk_dev (v_table d) (v_dr d) (v_power d) (v_nb d) (v_rx1_off d) (v_rx2_freq d) (v_rx2_dr d) (1000 * Z.max 1 del) (v_queue d)
  | _ => d
  end.
(** no channel is acknowledged that the device does not have *)
Definition has_channel (ca : mac_cmd * list Z) : Prop := match ca with (NewChannelReq i _ _, [7; 3]) => i < 16 | _ => True end.
(** Every command in [fo] is answered, in order, and the configuration is what the
    server concludes from its commands and the answers. *)
Definition answered (w w' : world) (fo : list Z) : Prop :=
  exists as_, Forall2 reply (mac_parse fo) as_ /\ fopts w' = fopts w ++ concat as_ /\ Forall has_channel (combine (mac_parse fo) as_) /\
    conf (dev_w w') = fold_left (mirror (default_nb_trans (stk w))) (combine (mac_parse fo) as_) (conf (dev_w w)).

(** ** LinkADRReq blocks, 5.2
    Adjacent LinkADRReq commands are one command: the device accepts or refuses all
    channel masks together, says the same about the mask in every answer, and takes the
    data rate, power and NbTrans of the last. *)
Definition block_atomic (w w' : world) (s1 s2 : Z) : Prop :=
  s1 mod 2 = s2 mod 2 /\ (s2 <> 7 -> same_radio w w' /\ same_chan w w').

(** ** NewChannelReq, 5.6
    The channels every join request may use cannot be changed; frequency 0 removes a
    channel; every data-rate range of the region may be given. *)
Definition default_channels (w : world) : Z :=
  match uw_region (stk w) with Some EU868 => 3 | Some RU864 => 2 | None => 0 end.
Definition dr_range (lo hi : Z) : Z := lo + 16 * hi.

(** ** Duty cycle, 5.3
    Time stamps (ms) for the calls and events of a run: in order, and no timer
    early. *)
Fixpoint on_time (l : list (Z * entry)) : Prop :=
  match l with
  | [] => True
  | (t, (_, _, es)) :: l' =>
      Forall (fun x => t <= fst x /\ forall id ms, In (TStart id ms) es -> fst (fst (snd x)) = OTimer id -> t + ms <= fst x) l' /\ on_time l'
  end.
(** A frame that starts at [a] and ends at [b] is followed by silence up to [c] such
    that at most one part in 2^n is spent sending *)
Definition duty_ok (n a b c : Z) : Prop := (b - a) * (2 ^ n - 1) <= c - b.
