(** LIrq.v -- what no radio event changes. *)
From Verif Require Export LUp3.

Record irqfr (s s' : st) : Prop := Mk_irqfr {
  if_cs : s_cs s' = s_cs s;
  if_en : adr_is_enabled (s_adr s') = adr_is_enabled (s_adr s);
  if_lim : ack_limit (s_adr s') = ack_limit (s_adr s);
  if_dly : ack_delay (s_adr s') = ack_delay (s_adr s);
  if_cnt : ack_cnt (s_adr s') = ack_cnt (s_adr s) \/ ack_cnt (s_adr s') = 0;
  if_cbs : mac_cbs (s_mac s') = mac_cbs (s_mac s);
  if_region : uw_region (s_stk s') = uw_region (s_stk s);
  if_init : uw_state (s_stk s') = NOT_INIT <-> uw_state (s_stk s) = NOT_INIT;
  if_rx1 : uw_rx1_delay (s_stk s') = uw_rx1_delay (s_stk s);
  if_rx2 : uw_rx2_delay (s_stk s') = uw_rx2_delay (s_stk s);
  if_nonce : uw_dev_nonce (s_stk s') = uw_dev_nonce (s_stk s);
  if_deui : uw_dev_eui (s_stk s') = uw_dev_eui (s_stk s);
  if_aeui : uw_app_eui (s_stk s') = uw_app_eui (s_stk s);
  if_key : uw_app_key (s_stk s') = uw_app_key (s_stk s);
  if_ddr : default_dr (s_stk s') = default_dr (s_stk s);
  if_dnb : default_nb_trans (s_stk s') = default_nb_trans (s_stk s);
  if_dtxp : default_tx_power (s_stk s') = default_tx_power (s_stk s);
  if_eirp : default_max_eirp (s_stk s') = default_max_eirp (s_stk s)
}.
Lemma irqfr_refl s : irqfr s s.
Proof. constructor; auto; reflexivity. Qed.
Lemma irqfr_trans a b c : irqfr a b -> irqfr b c -> irqfr a c.
Proof.
  intros [] []. constructor; try congruence.
  - destruct if_cnt1 as [->| ->]; auto.
  - rewrite if_init1. assumption.
Qed.
Lemma irqfr_frame F s : irqfr s (with_frame F s).
Proof. constructor; auto; reflexivity. Qed.
Lemma irqfr_end s : irqfr s (end_dl s).
Proof. constructor; auto; reflexivity. Qed.
Lemma irqfr_mac a b : macfr a b -> irqfr a b.
Proof.
  intros []. constructor; try congruence.
  - rewrite mf_adr. auto.
  - rewrite mf_state. reflexivity.
Qed.
Lemma irqfr_ack d s : irqfr s (d_ack d s).
Proof. unfold d_ack. destruct (_ =? 5); [|apply irqfr_refl]. constructor; auto; reflexivity. Qed.

Lemma ja_fr E d s r s2 es : ja_cases E d s (Ok (r, s2, es)) -> irqfr s s2.
Proof.
  intro H. inv_ok H; try apply irqfr_refl; try apply irqfr_frame.
  constructor; auto; reflexivity.
Qed.
Lemma data_fr E d rs sn h s r s2 es : env_ok E -> e_strict_shl E = false -> Inv s -> uw_region (s_stk s) <> None ->
  bytes_ok d -> -128 <= sn < 128 ->
  data_cases E d rs sn h s (Ok (r, s2, es)) -> irqfr s s2.
Proof.
  intros HE Hns HI Hr Hd Hsn H.
  assert (Hq : forall c, new_cnt (f_cnt_down (s_ses s)) (g16 d 6) = Some c -> irqfr s (fst (d_cmds E h d sn c s))).
  { intros c Hc. destruct (d_cmds_facts E h d sn c s HE Hns HI Hr Hd Hsn) as (_ & F & _).
    { eapply new_cnt_range; [|exact Hc]. apply g16_range. exact Hd. }
    eapply irqfr_trans; [|apply irqfr_mac; exact F]. unfold d_cnt.
    eapply irqfr_trans; [apply (irqfr_ack d)|]. constructor; auto; reflexivity. }
  inv_ok H; auto using irqfr_refl, irqfr_ack.
  match goal with Hc : new_cnt _ _ = Some ?c |- _ => specialize (Hq c Hc) end.
  eapply irqfr_trans; [exact Hq|]. constructor; auto; reflexivity.
Qed.
Lemma dl_fr E h s s' es : env_ok E -> e_strict_shl E = false -> Inv s -> uw_region (s_stk s) <> None ->
  dl_cases E h s (Ok (tt, s', es)) -> irqfr s s'.
Proof.
  intros HE Hns HI Hr H.
  assert (HI1 : Inv (rx_state (rx_data (e_pkt E h)) s))
    by (apply rx_state_Inv; [exact HI|apply (ok_pkt_byte E HE)|apply (ok_pkt_len E HE)]).
  inv_ok H; (eapply irqfr_trans; [|apply irqfr_end]); (eapply irqfr_trans; [apply (irqfr_frame (over d (frame s)))|]).
  - match goal with H : ja_cases _ _ _ _ |- _ => exact (ja_fr _ _ _ _ _ _ H) end.
  - match goal with H : data_cases _ _ _ _ _ _ _ |- _ => eapply (data_fr _ _ _ _ _ _ _ _ _ HE Hns HI1 Hr); [| |exact H] end.
    + apply (ok_pkt_byte E HE).
    + apply (ok_pkt_snr E HE).
Qed.
Lemma irqfr_idle s : uw_state (s_stk s) <> NOT_INIT -> irqfr s (idle_state s).
Proof. intro H. constructor; auto; try reflexivity. cbn. split; [discriminate|contradiction]. Qed.
Lemma irq_fr E m h s s' es : env_ok E -> e_strict_shl E = false -> Inv s ->
  irq_cases E m h s (Ok (tt, s', es)) -> irqfr s s'.
Proof.
  intros HE Hns HI H. inv_ok H.
  - apply irqfr_refl.
  - constructor; auto; try reflexivity.
    + cbn. unfold tx_done_mac. destruct (mac_save_dev_time _); [|reflexivity]. destruct (mac_cbs (s_mac s)) as [cb|] eqn:Ecb; [|exact Ecb].
      destruct (has_get_device_time cb); exact Ecb.
    + cbn. rewrite H. split; discriminate.
  - constructor; auto; try reflexivity. cbn. rewrite H. split; discriminate.
  - eapply irqfr_trans; [apply irqfr_idle; congruence|apply irqfr_end].
  - eapply irqfr_trans; [apply irqfr_idle; congruence|apply irqfr_end].
  - eapply irqfr_trans; [apply irqfr_idle; congruence|apply irqfr_end].
  - eapply irqfr_trans; [apply irqfr_idle; congruence|].
    match goal with H : dl_cases _ _ _ _ |- _ => eapply (dl_fr E _ _ _ _ HE Hns); [| |exact H] end;
    [apply idle_Inv|apply idle_region]; congruence || assumption.
  - eapply irqfr_trans; [apply irqfr_idle; congruence|].
    match goal with H : dl_cases _ _ _ _ |- _ => eapply (dl_fr E _ _ _ _ HE Hns); [| |exact H] end;
    [apply idle_Inv|apply idle_region]; congruence || assumption.
Qed.
