(** Prop_Set.v -- settings during which radio interrupts and timers are served (C99) *)
From Verif Require Import SpecSet LIsr LReent LStep LClock PUp PIrq PMac PStrict LSplit LSet LSet2 Demo Prop_Down Prop_Join Prop_Isr.
Open Scope m_scope.

(** *** C99: whatever strikes during uwan_init, packets and timers of the transaction that was
    going on included, the call does what it does when nothing strikes. *)
Theorem C99_init E I w r : hw_only I -> step_set_isr E I w (OInit r) = step E w (OInit r).
Proof.
  intro HI. unfold step_set_isr, step. cbn [call_set_isr call]. unfold as_unit, bind. rewrite (init_isr E I HI). reflexivity.
Qed.
Print Assumptions C99_init.

(** *** C99: uwan_set_otaa_keys takes effect after all interrupts that strike between its
    assignments. *)
Theorem C99_otaa_keys E I w d a k v es w2 : hw_only I ->
  step_set_isr E I w (OSetOtaa d a k) = Some (v, es, w2) <-> served_first E (I 0%nat ++ I 1%nat) w (OSetOtaa d a k) v es w2.
Proof.
  intro HI. apply (first_steps E I (I 0%nat ++ I 1%nat) w _ (uwan_set_otaa_keys_isr E I d a k) (uwan_set_otaa_keys d a k)); try reflexivity.
  intro r. apply otaa_isr; [exact HI|exact Logic.I].
Qed.
Print Assumptions C99_otaa_keys.

(** *** C99: uwan_set_tx_power and uwan_adr_setup_ack take effect before them. *)
Theorem C99_tx_power E I w p v es w2 : hw_only I ->
  step_set_isr E I w (OSetTxp p) = Some (v, es, w2) <-> served_then E (I 0%nat) w (OSetTxp p) v es w2.
Proof.
  intro HI. apply (then_steps E I VBool (I 0%nat) w _ (uwan_set_tx_power_isr E I p) (uwan_set_tx_power p)); try reflexivity.
  intro r. apply txp_isr; [apply HI|exact Logic.I].
Qed.
Print Assumptions C99_tx_power.
Theorem C99_adr_setup E I w l d v es w2 : hw_only I ->
  step_set_isr E I w (OAdrSetup l d) = Some (v, es, w2) <-> served_then E (I 0%nat) w (OAdrSetup l d) v es w2.
Proof.
  intro HI. apply (then_steps E I (fun _ => VUnit) (I 0%nat) w _ (uwan_adr_setup_ack_isr E I l d) (uwan_adr_setup_ack l d)); try reflexivity.
  intro r. apply adr_isr; [apply HI|exact Logic.I].
Qed.
Print Assumptions C99_adr_setup.

(** *** C99: so do uwan_set_session (if the RX1 offset is 0), uwan_enable_channel,
    uwan_set_channel and uwan_set_nb_trans, as long as no packet is reported in them ... *)
Theorem C99_session_partial E I w a u d n p v es w2 : hw_only I -> (forall k, no_rx_done (I k)) -> uw_rx1_offset (stk w) = 0 ->
  step_set_isr E I w (OSetSession a u d n p) = Some (v, es, w2) <->
  served_then E (I 0%nat ++ I 1%nat ++ I 2%nat ++ I 3%nat ++ I 4%nat ++ I 5%nat ++ I 6%nat) w (OSetSession a u d n p) v es w2.
Proof.
  intros HI HN Ho. apply (then_steps E I (fun _ => VUnit) _ w _ (uwan_set_session_isr E I a u d n p) (uwan_set_session a u d n p)); try reflexivity.
  intro r. pose proof (session_isr E I a u d n p HI HN (w_hist w) (w_st w) Ho r) as K. unfold all7 in K. rewrite <- !app_assoc in K. exact K.
Qed.
Print Assumptions C99_session_partial.
Theorem C99_enable_channel_partial E I w i b v es w2 : hw_only I -> no_rx_done (I 0%nat) ->
  step_set_isr E I w (OEnableChannel i b) = Some (v, es, w2) <-> served_then E (I 0%nat) w (OEnableChannel i b) v es w2.
Proof.
  intros HI HN. apply (then_steps E I VErr (I 0%nat) w _ (uwan_enable_channel_isr E I i b) (uwan_enable_channel i b)); try reflexivity.
  intro r. apply enable_isr; [apply HI|exact HN|exact Logic.I].
Qed.
Print Assumptions C99_enable_channel_partial.
Theorem C99_set_channel_partial E I w i f v es w2 : hw_only I -> no_rx_done (I 0%nat) ->
  step_set_isr E I w (OSetChannel i f) = Some (v, es, w2) <-> served_then E (I 0%nat) w (OSetChannel i f) v es w2.
Proof.
  intros HI HN. apply (then_steps E I VErr (I 0%nat) w _ (uwan_set_channel_isr E I i f) (uwan_set_channel i f)); try reflexivity.
  intro r. apply channel_isr; [apply HI|exact HN|exact Logic.I].
Qed.
Print Assumptions C99_set_channel_partial.
Theorem C99_nb_trans_partial E I w n v es w2 : hw_only I -> no_rx_done (I 0%nat) ->
  step_set_isr E I w (OSetNb n) = Some (v, es, w2) <-> served_then E (I 0%nat) w (OSetNb n) v es w2.
Proof.
  intros HI HN. apply (then_steps E I VBool (I 0%nat) w _ (uwan_set_nb_trans_isr E I n) (uwan_set_nb_trans n)); try reflexivity.
  intro r. apply nb_isr; [apply HI|exact HN|exact Logic.I].
Qed.
Print Assumptions C99_nb_trans_partial.
(** *** ... and uwan_set_rx2, if no receive window ends in it either. *)
Theorem C99_rx2_partial E I w f d v es w2 : hw_only I -> no_rx_done (I 0%nat) -> no_timeout (I 0%nat) ->
  step_set_isr E I w (OSetRx2 f d) = Some (v, es, w2) <-> served_then E (I 0%nat) w (OSetRx2 f d) v es w2.
Proof.
  intros HI HN HT. apply (then_steps E I VErr (I 0%nat) w _ (uwan_set_rx2_isr E I f d) (uwan_set_rx2 f d)); try reflexivity.
  intro r. apply rx2_isr; [apply HI|exact HN|exact HT|exact Logic.I].
Qed.
Print Assumptions C99_rx2_partial.

(** ** Cases *)
Definition set_case (E : env) (I : strikes) (ops : list op) (o : op) (P : world -> val -> list ev -> world -> bool) : Prop :=
  exists v es w2, env_ok E /\ reachable E (after E ops) /\ op_wf o /\ step_set_isr E I (after E ops) o = Some (v, es, w2) /\ P (after E ops) v es w2 = true.
Lemma set_case_ok E I ops o P : env_ok E -> forallb op_wfb ops && runs E ops && op_wfb o &&
  match step_set_isr E I (after E ops) o with Some (v, es, w2) => P (after E ops) v es w2 | None => false end = true -> set_case E I ops o P.
Proof.
  intros HE H. apply andb_prop in H as [H HP]. apply andb_prop in H as [H Ho]. unfold set_case.
  destruct (step_set_isr E I (after E ops) o) as [[[v es] w2]|] eqn:Q; [|discriminate HP].
  exists v, es, w2. split; [exact HE|]. split; [apply after_reach; exact H|]. split; [apply op_wfb_ok; exact Ho|]. split; [reflexivity|exact HP].
Qed.
Ltac set_case := apply set_case_ok; [apply demo_ok|vm_compute; reflexivity].
(** the transaction goes on while the keys and the limits are set: the packet is delivered *)
Definition E99 : env := demo [1; 2; 3; 4] [(dl 8 false 0 [3; 80; 7; 0; 1] (Some (5, [1; 2])), 9)].
Definition busy : list op := abp 0 7 ++ after_uplink.
Definition answered (v : val) (es : list ev) (w2 : world) : bool :=
  match v, callbacks es with VErr ERR_NO, [(ERR_NO, _, _)] | VUnit, [(ERR_NO, _, _)] | VBool true, [(ERR_NO, _, _)] => in_state IDLE w2 | _, _ => false end.
Example C99_init_case : hw_only (at_point 4 [OTimer TIMER_RX1; OIrq 2]) /\
  set_case E99 (at_point 4 [OTimer TIMER_RX1; OIrq 2]) busy (OInit RU864) (fun w v es w2 => in_state RX1 w && in_state IDLE w2 && is_nil (callbacks es) && chan_on w2 1).
Proof. split; [apply at_hw; repeat constructor|]. set_case. Qed.
Example C99_otaa_keys_case : set_case E99 (at_point 1 [OTimer TIMER_RX1; OIrq 2]) busy (OSetOtaa eui1 eui2 k3)
  (fun w v es w2 => in_state RX1 w && answered v es w2 && list_eqb (uw_app_key (stk w2)) k3).
Proof. set_case. Qed.
Example C99_tx_power_case : set_case E99 (at_point 0 [OTimer TIMER_RX1; OIrq 2]) busy (OSetTxp 5)
  (fun w v es w2 => in_state RX1 w && answered v es w2 && (uw_tx_power (stk w2) =? 0) && (default_tx_power (stk w2) =? 5)).
Proof. set_case. Qed.
Example C99_adr_setup_case : set_case E99 (at_point 0 [OTimer TIMER_RX1; OIrq 2]) busy (OAdrSetup 3 4)
  (fun w v es w2 => in_state RX1 w && answered v es w2).
Proof. set_case. Qed.
(** the transaction ends without an answer while the settings are made *)
Definition ending : list op := [OTimer TIMER_RX1; OIrq 1; OTimer TIMER_RX2; OIrq 1].
Definition unanswered (w : world) (v : val) (es : list ev) (w2 : world) : bool :=
  in_state RX1 w && in_state IDLE w2 && took v && match callbacks es with [(ERR_RX_TIMEOUT, _, _)] => true | _ => false end.
Definition split7 : strikes := fun k => match k with 0 => [OTimer TIMER_RX1] | 2 => [OIrq 1] | 5 => [OTimer TIMER_RX2] | 6 => [OIrq 1] | _ => [] end%nat.
Example C99_session_case : hw_only split7 /\ (forall k, no_rx_done (split7 k)) /\
  set_case E99 split7 busy (OSetSession 11 12 13 k2 k1) (fun w v es w2 => unanswered w v es w2 && (uw_rx1_offset (stk w) =? 0) && (dev_addr (ses w2) =? 11)).
Proof.
  split; [intro k; do 7 (destruct k as [|k]; [repeat constructor|]); constructor|].
  split; [intro k; do 7 (destruct k as [|k]; [repeat constructor|]); constructor|]. set_case.
Qed.
Example C99_enable_channel_case : no_rx_done ending /\
  set_case E99 (at_point 0 ending) busy (OEnableChannel 2 false) (fun w v es w2 => unanswered w v es w2 && chan_on w 2 && negb (chan_on w2 2)).
Proof. split; [repeat constructor|]. set_case. Qed.
Example C99_set_channel_case : set_case E99 (at_point 0 ending) busy (OSetChannel 5 867100000) (fun w v es w2 => unanswered w v es w2 && chan_on w2 5).
Proof. set_case. Qed.
Example C99_nb_trans_case : set_case E99 (at_point 0 ending) busy (OSetNb 3) (fun w v es w2 => unanswered w v es w2 && (default_nb_trans (stk w2) =? 3)).
Proof. set_case. Qed.
Example C99_rx2_case : no_timeout [OTimer TIMER_RX1; OIrq 8] /\
  set_case E99 (at_point 0 [OTimer TIMER_RX1; OIrq 8]) busy (OSetRx2 869525000 3) (fun w v es w2 => in_state RX1 w && took v && negb (is_nil es) && (uw_rx2_dr (stk w2) =? 3)).
Proof. split; [repeat constructor|]. set_case. Qed.

(** ** What packets and the end of a window can do in the middle of a setting *)
(** a strike whose outcome is neither that of serving it first nor that of serving it then *)
Definition torn (E : env) (w : world) (n : nat) (ops : list op) (o : op) (v : val) (es : list ev) (w2 : world) : Prop :=
  step_set_isr E (at_point n ops) w o = Some (v, es, w2) /\ ~ served_first E ops w o v es w2 /\ ~ served_then E ops w o v es w2.
Lemma torn_ok E pre n ops o (Q : list ev -> world -> bool) : env_ok E -> forallb op_wfb pre && runs E pre && op_wfb o = true ->
  match step_set_isr E (at_point n ops) (after E pre) o with Some (v, es, w2) => took v && Q es w2 | None => false end = true ->
  match run E (after E pre) (ops ++ [o]) with Some (tr, w2) => negb (Q (all_evs tr) w2) | None => false end = true ->
  match run E (after E pre) (o :: ops) with Some (tr, w2) => negb (Q (all_evs tr) w2) | None => false end = true ->
  env_ok E /\ reachable E (after E pre) /\ op_wf o /\ exists v es w2, torn E (after E pre) n ops o v es w2 /\ took v = true /\ Q es w2 = true.
Proof.
  intros HE H0 H1 H2 H3. apply andb_prop in H0 as [H0 Ho]. split; [exact HE|]. split; [apply after_reach; exact H0|]. split; [apply op_wfb_ok; exact Ho|]. clear H0 Ho HE. unfold torn.
  revert H1 H2 H3. generalize (after E pre). clear pre. intros w H1 H2 H3.
  destruct (step_set_isr E (at_point n ops) w o) as [[[v es] w2]|] eqn:S; [|discriminate H1]. apply andb_prop in H1 as [Ht H1].
  exists v, es, w2. split; [|split; [exact Ht|exact H1]]. split; [reflexivity|]. split.
  - intros (tr & w1 & es1 & Hx & Hs & ->). assert (X : exec E w (ops ++ [o]) (tr ++ [(o, v, es1)]) w2) by (eapply exec_app; [exact Hx|eapply exec_cons; [exact Hs|constructor]]).
    rewrite (exec_run _ _ _ _ _ X) in H2. assert (Z : all_evs (tr ++ [(o, v, es1)]) = all_evs tr ++ es1) by (unfold all_evs; rewrite flat_map_app; cbn; rewrite app_nil_r; reflexivity). rewrite Z, H1 in H2. discriminate H2.
  - intros (es1 & w1 & tr & Hs & Hx & ->). rewrite Ht in Hx. assert (X : exec E w (o :: ops) ((o, v, es1) :: tr) w2) by (eapply exec_cons; eassumption).
    rewrite (exec_run _ _ _ _ _ X) in H3. change (all_evs ((o, v, es1) :: tr)) with (es1 ++ all_evs tr) in H3. rewrite H1 in H3. discriminate H3.
Qed.

(** *** uwan_set_session with packets: between the assignment of the downlink counter and the
    copy of the key (point 2), a frame of the old session whose counter is long past is
    accepted, because the counter already is the new one and the key still the old one. *)
Definition replays (es : list ev) (w2 : world) : bool := match callbacks es with [(ERR_NO, _, _)] => true | _ => false end.
Definition E99s : env := demo [1; 2; 3; 4] [(dl 8 false 0 [] (Some (5, [1; 2])), 9)].
Theorem C99_session_refuted : let w := after E99s (abp 0 100 ++ after_uplink) in let o := OSetSession 637603841 0 0 k2 k3 in
  env_ok E99s /\ reachable E99s w /\ op_wf o /\ exists v es w2, torn E99s w 2 [OTimer TIMER_RX1; OIrq 2] o v es w2 /\ took v = true /\ replays es w2 = true.
Proof. cbv zeta. apply torn_ok; [apply demo_ok|vm_compute; reflexivity..]. Qed.
Print Assumptions C99_session_refuted.

(** *** uwan_set_rx2 when the first window ends in it: the second window is opened on the new
    frequency with the old data rate. *)
Definition mixed (es : list ev) (w2 : world) : bool :=
  match filter (fun e => match e with RSetFreq _ | RSetup _ => true | _ => false end) es with [RSetFreq f; RSetup p] => (f =? 869525000) && (p_sf p =? SF_12) | _ => false end.
Theorem C99_rx2_refuted : let w := after E99 busy in let o := OSetRx2 869525000 3 in
  env_ok E99 /\ reachable E99 w /\ op_wf o /\ exists v es w2, torn E99 w 0 [OTimer TIMER_RX1; OIrq 1] o v es w2 /\ took v = true /\ mixed es w2 = true.
Proof. cbv zeta. apply torn_ok; [apply demo_ok|vm_compute; reflexivity..]. Qed.
Print Assumptions C99_rx2_refuted.

(** *** uwan_enable_channel with packets: a LinkADRReq without channel 3 that is handled between
    its two assignments leaves channel 3 switched on but beyond uw_channels_max_count, where
    channels_get_next does not look. *)
Definition E99c : env := demo [1; 2; 3; 4] [(dl 8 false 0 [3; 80; 7; 0; 1] None, 9)].
Definition unused (es : list ev) (w2 : world) : bool := chan_on w2 3 && (uw_channels_max_count (s_ch (w_st w2)) =? 3).
Theorem C99_enable_channel_refuted : let w := after E99c (abp 0 7 ++ [OSetChannel 3 867100000; OEnableChannel 3 false] ++ after_uplink) in let o := OEnableChannel 3 true in
  env_ok E99c /\ reachable E99c w /\ op_wf o /\ exists v es w2, torn E99c w 0 [OTimer TIMER_RX1; OIrq 2] o v es w2 /\ took v = true /\ unused es w2 = true.
Proof. cbv zeta. apply torn_ok; [apply demo_ok|vm_compute; reflexivity..]. Qed.
Print Assumptions C99_enable_channel_refuted.

(** *** uwan_set_channel with packets: a packet with two LinkADRReq, the first with channel 3
    and the second without, is carried out between the assignment and the activation: both
    are accepted, yet the channel is on. *)
Definition E99d : env := demo [1; 2; 3; 4] [(dl 8 false 0 [3; 80; 15; 0; 1; 3; 81; 7; 0; 1] None, 9)].
Definition both_and_on (es : list ev) (w2 : world) : bool := chan_on w2 3 && list_eqb (firstn 4 (mac_buf (s_mac (w_st w2)))) [3; 7; 3; 7].
Theorem C99_set_channel_refuted : let w := after E99d (abp 0 7 ++ after_uplink) in let o := OSetChannel 3 867100000 in
  env_ok E99d /\ reachable E99d w /\ op_wf o /\ exists v es w2, torn E99d w 0 [OTimer TIMER_RX1; OIrq 2] o v es w2 /\ took v = true /\ both_and_on es w2 = true.
Proof. cbv zeta. apply torn_ok; [apply demo_ok|vm_compute; reflexivity..]. Qed.
Print Assumptions C99_set_channel_refuted.

(** *** uwan_set_nb_trans with packets: a LinkADRReq with NbTrans 0 that is handled between its
    two assignments puts the old default back, although the new default is set. *)
Definition E99n : env := demo [1; 2; 3; 4] [(dl 8 false 0 [3; 80; 7; 0; 0] None, 9)].
Definition old_count (es : list ev) (w2 : world) : bool := (uw_nb_trans (stk w2) =? 1) && (default_nb_trans (stk w2) =? 3).
Theorem C99_nb_trans_refuted : let w := after E99n busy in let o := OSetNb 3 in
  env_ok E99n /\ reachable E99n w /\ op_wf o /\ exists v es w2, torn E99n w 0 [OTimer TIMER_RX1; OIrq 2] o v es w2 /\ took v = true /\ old_count es w2 = true.
Proof. cbv zeta. apply torn_ok; [apply demo_ok|vm_compute; reflexivity..]. Qed.
Print Assumptions C99_nb_trans_refuted.
