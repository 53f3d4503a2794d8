(** SpecReent.v -- vocabulary for handlers that call the API (C90) *)
From Verif Require Export SpecApi Reent.

(** the call of one of the functions given to uwan_mac_set_handlers *)
Definition is_handler (e : ev) : bool :=
  match e with MBattery _ | MLinkCheck _ _ | MGetTime _ | MTimeResult _ _ _ => true | _ => false end.
(** everything else that was called *)
Definition outside (es : list ev) : list ev := filter (fun e => negb (is_handler e)) es.

(** The application calls the API from downlink_callback only. *)
Definition callback_only (R : reaction) : Prop :=
  forall h e, (forall x t v, e <> CbDown x t v) -> R (h ++ [e]) = [].

(** calls that read or change a setting or queue a request: all but those that start the
    stack or a session, transmit, or are themselves interrupts *)
Definition setting (o : op) : bool :=
  match o with
  | OInit _ | OSetSession _ _ _ _ _ | OJoin | OSend _ _ _ | OTimer _ | OIrq _
  | OCsHandle _ _ _ _ | OCsSendReq _ | OCsSendAns => false
  | _ => true
  end.
Definition setting_ops (ops : list op) : Prop := Forall (fun o => op_wf o /\ setting o = true) ops.
(** In the functions given to uwan_mac_set_handlers the application makes such calls only;
    in downlink_callback it may call anything. *)
Definition settings_only (R : reaction) : Prop :=
  forall h e, (forall x t v, e <> CbDown x t v) -> setting_ops (R (h ++ [e])).

(** phase of the transaction, session and counters *)
Record same_link (w w' : world) : Prop := Mk_same_link {
  sl_state : uw_state (s_stk (w_st w')) = uw_state (s_stk (w_st w));
  sl_join : uw_is_join_state (s_stk (w_st w')) = uw_is_join_state (s_stk (w_st w));
  sl_frame : uw_frame (s_stk (w_st w')) = uw_frame (s_stk (w_st w));
  sl_joined : is_joined (s_ses (w_st w')) = is_joined (s_ses (w_st w));
  sl_ack : ack_required (s_ses (w_st w')) = ack_required (s_ses (w_st w));
  sl_addr : dev_addr (s_ses (w_st w')) = dev_addr (s_ses (w_st w));
  sl_up : f_cnt_up (s_ses (w_st w')) = f_cnt_up (s_ses (w_st w));
  sl_down : f_cnt_down (s_ses (w_st w')) = f_cnt_down (s_ses (w_st w));
  sl_nwk : nwk_s_key (s_ses (w_st w')) = nwk_s_key (s_ses (w_st w));
  sl_app : app_s_key (s_ses (w_st w')) = app_s_key (s_ses (w_st w))
}.

(** what the application calls once the callback has been entered; [es] is the interrupt's
    doing before that *)
Definition then_calls (R : reaction) (es : list ev) (w : world) : list op :=
  match callbacks es with [] => [] | _ => R (w_hist w) end.
