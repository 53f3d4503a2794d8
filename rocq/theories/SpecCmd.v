(** SpecCmd.v -- vocabulary of the statements about MAC commands. *)
From Verif Require Export SpecRx.

(** LoRaWAN 1.0.3 table 4: size of the payload of a command sent by the server *)
Definition payload_size (cid : Z) : option nat :=
  if cid =? 2 then Some 2%nat else if cid =? 3 then Some 4%nat else if cid =? 4 then Some 1%nat
  else if cid =? 5 then Some 4%nat else if cid =? 6 then Some 0%nat else if cid =? 7 then Some 5%nat
  else if cid =? 8 then Some 1%nat else if cid =? 9 then Some 1%nat else if cid =? 10 then Some 4%nat
  else if cid =? 13 then Some 5%nat else None.
(** what a device may put into its answer queue, whole *)
Definition mac_answer (a : list Z) : Prop :=
  a = [2] \/ a = [13] \/ a = [4] \/ a = [8] \/ (exists s, a = [3; s] \/ a = [5; s] \/ a = [7; s]) \/
  exists b s, a = [6; b; s].
(** FOpts of all data uplinks of an execution, in order *)
Definition sent_fopts (tr : list entry) : list Z := flat_map fr_fopts (data_frames tr).
Definition is_init (t : entry) : Prop := exists r, fst (fst t) = OInit r.
(** a data frame was accepted, with FOpts [fo] *)
Definition accepted_fopts (E : env) (w : world) (m : Z) (es : list ev) (fo : list Z) : Prop :=
  receives w m /\ delivers E w m es /\ fr_fopts (rx_data (received E w)) = fo.
(** queue after an answer: appended whole or not at all *)
Definition queued (q a : list Z) : list Z := if len q + len a <=? 15 then q ++ a else q.
(** what a LinkADRReq, RXParamSetupReq or NewChannelReq may change *)
Definition same_radio (w w' : world) : Prop :=
  ses_dr (ses w') = ses_dr (ses w) /\ uw_tx_power (stk w') = uw_tx_power (stk w) /\
  uw_nb_trans (stk w') = uw_nb_trans (stk w).
Definition same_chan (w w' : world) : Prop :=
  forall i, 0 <= i < 16 -> chan_freq w' i = chan_freq w i /\ chan_on w' i = chan_on w i.
Definition same_rx (w w' : world) : Prop :=
  uw_rx1_offset (stk w') = uw_rx1_offset (stk w) /\ uw_rx2_frequency (stk w') = uw_rx2_frequency (stk w) /\
  uw_rx2_dr (stk w') = uw_rx2_dr (stk w).
Definition same_delay (w w' : world) : Prop := default_rx1_delay (stk w') = default_rx1_delay (stk w).
