(** LRx.v -- what receiving a data frame does, in the words of SpecDown
    (infrastructure for C10 - C24). *)
From Verif Require Export LChan.

Lemma mac_calls_app a b : mac_calls (a ++ b) = mac_calls a ++ mac_calls b.
Proof. apply filter_app. Qed.
Lemma mac_calls_mac es : Forall (fun e => is_mac_ev e = true) es -> mac_calls es = es.
Proof.
  induction es as [|e es IH]; intro H; [reflexivity|]. apply Forall_cons_iff in H. destruct H as [H1 H2].
  unfold mac_calls. cbn [filter]. destruct e; try discriminate H1; rewrite <- (IH H2) at 2; reflexivity.
Qed.
Lemma mac_calls_crypto es : Forall (fun e => is_crypto e = true) es -> mac_calls es = [].
Proof.
  induction es as [|e es IH]; intro H; [reflexivity|]. apply Forall_cons_iff in H. destruct H as [H1 H2].
  unfold mac_calls. cbn [filter]. destruct e; try discriminate H1; exact (IH H2).
Qed.
Lemma calls_mac_crypto a b : Forall (fun e => is_mac_ev e = true) a -> Forall (fun e => is_crypto e = true) b ->
  mac_calls (a ++ b) = a.
Proof. intros Ha Hb. rewrite mac_calls_app, mac_calls_mac, mac_calls_crypto by assumption. apply app_nil_r. Qed.
Lemma rx_pre_calls w : mac_calls (rx_pre w) = [] /\ callbacks (rx_pre w) = [].
Proof. unfold rx_pre. destruct (uw_state (stk w)); split; reflexivity. Qed.

(** the frame passed every check before its commands are executed *)
Definition checked (w : world) (d : list Z) (c : Z) : Prop :=
  d_hdr_ok d /\ g32 d 1 = dev_addr (ses w) /\ 12 + d_fopts_len d <= len d /\
  new_cnt (f_cnt_down (ses w)) (g16 d 6) = Some c.

Lemma d_mic_evs_crypto d c s : Forall (fun e => is_crypto e = true) (d_mic_evs d c s).
Proof. apply mic_evs_crypto. Qed.
Lemma d_dec_evs_crypto d c s : Forall (fun e => is_crypto e = true) (d_dec_evs d c s).
Proof. unfold d_dec_evs. destruct (_ <=? _); [constructor|apply crypt_evs_crypto]. Qed.

(** everything a received data frame can do *)
Inductive rx_out (E : env) (w : world) (d : list Z) (es : list ev) (w' : world) : Prop :=
| RO_early r t view : r <> ERR_NO -> r <> ERR_MSG_MIC ->
    (r = ERR_MSG_LEN /\ len d < 12 \/ r = ERR_MSG_MHDR /\ 12 <= len d /\ ~ d_hdr_ok d) ->
    callbacks es = [(r, t, view)] -> mac_calls es = [] ->
    w_st w' = end_dl (rx_s1 E w) -> rx_out E w d es w'
| RO_header r t view : r <> ERR_NO -> r <> ERR_MSG_MIC -> d_hdr_ok d ->
    (r = ERR_DEV_ADDR /\ g32 d 1 <> dev_addr (ses w) \/
     r = ERR_MSG_LEN /\ g32 d 1 = dev_addr (ses w) /\ len d < 12 + d_fopts_len d \/
     r = ERR_FCNT /\ g32 d 1 = dev_addr (ses w) /\ 12 + d_fopts_len d <= len d /\
       new_cnt (f_cnt_down (ses w)) (g16 d 6) = None) ->
    callbacks es = [(r, t, view)] -> mac_calls es = [] ->
    w_st w' = end_dl (d_ack d (rx_s1 E w)) -> rx_out E w d es w'
| RO_mic c t view : checked w d c -> ~ d_mic_ok E d c (w_st w) ->
    callbacks es = [(ERR_MSG_MIC, t, view)] ->
    let cm := d_cmds (relax E) (cmd_hist E w) d (rx_snr (received E w)) c (rx_s1 E w) in
    mac_calls es = snd cm ->
    w_st w' = end_dl (fst cm) -> rx_out E w d es w'
| RO_ok c : checked w d c -> d_mic_ok E d c (w_st w) ->
    let cm := d_cmds (relax E) (cmd_hist E w) d (rx_snr (received E w)) c (rx_s1 E w) in
    mac_calls es = snd cm ->
    w_st w' = end_dl (on_adr (set_ack_cnt 0) (with_frame (over (d_frame E d c (w_st w)) (frame (rx_s1 E w))) (fst cm))) ->
    callbacks es = [(ERR_NO, get (frame (rx_s1 E w)) 0 / 32,
      p_view (if 0 <? d_rest d
              then Mk_pkt (Some (9 + d_fopts_len d)) (d_rest d - 1) (d_port d) (rx_rssi (received E w)) (rx_snr (received E w))
              else Mk_pkt None 0 0 (rx_rssi (received E w)) (rx_snr (received E w)))
        (on_adr (set_ack_cnt 0) (with_frame (over (d_frame E d c (w_st w)) (frame (rx_s1 E w))) (fst cm))))] ->
    rx_out E w d es w'.

Lemma rx_outcome E w m v es w' : env_ok E -> Inv (w_st w) -> step E w (OIrq m) = Some (v, es, w') ->
  receives w m -> joining w = false -> rx_out E w (rx_data (received E w)) es w'.
Proof.
  intros HE HI H Hr Hj. destruct (rx_pre_calls w) as [P1 P2].
  destruct (rx_data_step E w m v es w' HE HI H Hr Hj) as (r & p & s2 & es1 & Hw & -> & Hd). cbv zeta in *.
  destruct (rx_s1_Inv E w HE HI (proj1 Hr)) as [HI1 Hreg].
  set (d := rx_data (received E w)) in *. set (rx := received E w) in *.
  assert (Hb : bytes_ok d) by apply (ok_pkt_byte E HE).
  assert (Hsnr : -128 <= rx_snr rx < 128) by apply (ok_pkt_snr E HE).
  assert (Hob : forall e1, Forall (fun e => is_quiet e = true) e1 ->
     callbacks (rx_pre w ++ RRead rx :: RSleep :: e1 ++ [CbDown r (get (frame (rx_s1 E w)) 0 / 32) (p_view p s2)]) =
       [(r, get (frame (rx_s1 E w)) 0 / 32, p_view p s2)] /\
     mac_calls (rx_pre w ++ RRead rx :: RSleep :: e1 ++ [CbDown r (get (frame (rx_s1 E w)) 0 / 32) (p_view p s2)]) =
       mac_calls e1).
  { intros e1 Hq. rewrite callbacks_app, mac_calls_app, P1, P2. cbn [app callbacks]. rewrite callbacks_app.
    rewrite (quiet_callbacks e1 Hq). split; [reflexivity|]. unfold mac_calls. cbn [filter].
    rewrite filter_app. cbn [filter]. apply app_nil_r. }
  assert (Hcm : forall c, new_cnt (f_cnt_down (s_ses (rx_s1 E w))) (g16 d 6) = Some c ->
     Forall (fun e => is_mac_ev e = true) (snd (d_cmds (relax E) (cmd_hist E w) d (rx_snr rx) c (rx_s1 E w)))).
  { intros c Hc. apply (d_cmds_facts (relax E) (cmd_hist E w) d (rx_snr rx) c (rx_s1 E w)
      (relax_ok E HE) eq_refl HI1 Hreg Hb Hsnr). eapply new_cnt_range; [|exact Hc]. apply g16_range. exact Hb. }
  remember (Ok (r, p, s2, es1)) as x eqn:Ex. destruct Hd; apply Ok_inj in Ex; destruct Ex as (Er & Es & Ee);
    injection Er as <- <-; subst s2 es1.
  - destruct (Hob [] (Forall_nil _)) as [O1 O2]. eapply RO_early; [| | |exact O1|exact O2|exact Hw]; try discriminate. auto.
  - destruct (Hob [] (Forall_nil _)) as [O1 O2]. eapply RO_early; [| | |exact O1|exact O2|exact Hw]; try discriminate. auto.
  - destruct (Hob [] (Forall_nil _)) as [O1 O2]. eapply RO_header; [| | | |exact O1|exact O2|exact Hw]; try discriminate; auto.
  - destruct (Hob [] (Forall_nil _)) as [O1 O2]. eapply RO_header; [| | | |exact O1|exact O2|exact Hw]; try discriminate; auto 6.
  - destruct (Hob [] (Forall_nil _)) as [O1 O2]. eapply RO_header; [| | | |exact O1|exact O2|exact Hw]; try discriminate; auto 8.
  - destruct (Hob (snd (d_cmds (relax E) (cmd_hist E w) d (rx_snr rx) c (rx_s1 E w)) ++ d_mic_evs d c (rx_s1 E w))) as [O1 O2].
    { apply Forall_app. split; [apply mac_quiet, Hcm; assumption|apply crypto_quiet, d_mic_evs_crypto]. }
    pose proof (eq_trans O2 (calls_mac_crypto _ _ (Hcm c H3) (d_mic_evs_crypto _ _ _))) as O3.
    eapply (RO_mic E w d _ w' c); [| |exact O1|exact O3|exact Hw]; [split; [exact H0|split; [exact H1|split; [exact H2|exact H3]]]|].
    assumption.
  - destruct (Hob (snd (d_cmds (relax E) (cmd_hist E w) d (rx_snr rx) c (rx_s1 E w)) ++ d_mic_evs d c (rx_s1 E w) ++ d_dec_evs d c (rx_s1 E w))) as [O1 O2].
    { apply Forall_app. split; [apply mac_quiet, Hcm; assumption|].
      apply Forall_app. split; apply crypto_quiet; [apply d_mic_evs_crypto|apply d_dec_evs_crypto]. }
    pose proof (eq_trans O2 (calls_mac_crypto _ _ (Hcm c H3)
      (proj2 (Forall_app _ _ _) (conj (d_mic_evs_crypto _ _ _) (d_dec_evs_crypto _ _ _))))) as O3.
    eapply (RO_ok E w d _ w' c); [| |exact O3|exact Hw|exact O1]; [split; [exact H0|split; [exact H1|split; [exact H2|exact H3]]]|].
    assumption.
Qed.

(** commands *)
Lemma dev_s1 E w d snr c : dev_of (d_cnt d snr c (rx_s1 E w)) = dev_w w.
Proof. unfold d_cnt, d_ack. destruct (_ =? 5); reflexivity. Qed.
Lemma ctx_s1 E w d c : ctx_of (relax E) (d_cnt d (rx_snr (received E w)) c (rx_s1 E w)) = rx_ctx E w.
Proof. unfold d_cnt, d_ack. destruct (_ =? 5); reflexivity. Qed.
Lemma checked_run E w c m : env_ok E -> Inv (w_st w) -> receives w m ->
  let d := rx_data (received E w) in checked w d c ->
  let cm := d_cmds (relax E) (cmd_hist E w) d (rx_snr (received E w)) c (rx_s1 E w) in
  mac_run (rx_ctx E w) (cmd_hist E w) (mac_parse (fr_fopts d)) (dev_w w) = (dev_of (fst cm), snd cm).
Proof.
  intros HE HI Hr d (Hh & Ha & Hl & Hc) cm.
  destruct (rx_s1_Inv E w HE HI (proj1 Hr)) as [HI1 Hreg].
  assert (Hb : bytes_ok d) by apply (ok_pkt_byte E HE).
  assert (Hsnr : -128 <= rx_snr (received E w) < 128) by apply (ok_pkt_snr E HE).
  assert (Hcr : 0 <= c < 4294967296) by (eapply new_cnt_range; [|exact Hc]; apply g16_range; exact Hb).
  rewrite fr_fopts_d.
  pose proof (loop_run (relax E) (length (d_fopts d)) (d_fopts d) (cmd_hist E w)
    (d_cnt d (rx_snr (received E w)) c (rx_s1 E w)) (relax_ok E HE)
    (d_cnt_Inv d _ c _ HI1 Hsnr Hcr) (bytes_sub _ _ _ Hb) (le_n _)) as H.
  rewrite dev_s1, ctx_s1 in H. exact H.
Qed.

(** ** Radio events that are not receptions *)
Lemma receives_dec w m : receives w m \/ ~ receives w m.
Proof.
  unfold receives. destruct (uw_state (stk w)), (Z.testbit m 0), (Z.testbit m 1), (Z.testbit m 3);
    try (left; repeat split; auto; fail); right; intros ([?|?] & ? & ? & ?); discriminate.
Qed.
Definition no_view : dlview := Mk_dlview None 0 0 0 0.
Record norx (E : env) (w : world) (es : list ev) (w' : world) : Prop := Mk_norx {
  nr_ses : ses w' = ses w;
  nr_ch : s_ch (w_st w') = s_ch (w_st w);
  nr_adr : s_adr (w_st w') = s_adr (w_st w);
  nr_cs : s_cs (w_st w') = s_cs (w_st w);
  nr_mac : s_mac (w_st w') = s_mac (w_st w) \/
           (uw_state (stk w) = TX /\ s_mac (w_st w') = tx_done_mac E (w_hist w ++ tx_done_evs1 (w_st w)) (s_mac (w_st w)));
  nr_cb : callbacks es = [] \/ exists e, e <> ERR_NO /\ callbacks es = [(e, 0, no_view)];
  nr_calls : mac_calls es = [];
  nr_tx : tx_frames es = [];
  nr_stk : set_pkt_params (pkt_params (stk w)) (set_uw_state IDLE (set_uw_is_join_state false (stk w'))) =
           set_uw_state IDLE (set_uw_is_join_state false (stk w))
}.
Lemma tx_done_time_calls E h m : mac_calls (tx_done_time E h m) = [] /\ callbacks (tx_done_time E h m) = [] /\
  tx_frames (tx_done_time E h m) = [].
Proof.
  unfold tx_done_time. destruct (mac_save_dev_time m); [|auto]. destruct (mac_cbs m) as [c|]; [|auto].
  destruct (has_get_device_time c); auto.
Qed.
Lemma norx_step E w m v es w' : env_ok E -> Inv (w_st w) -> step E w (OIrq m) = Some (v, es, w') ->
  ~ receives w m -> norx E w es w'.
Proof.
  intros HE HI H Hn. destruct (step_irq E w m v es w' HE HI H) as (_ & Hc).
  unfold receives, stk, flag in *. unfold no_view.
  assert (Hk : set_pkt_params (pkt_params (s_stk (w_st w))) (set_uw_state IDLE (set_uw_is_join_state false (s_stk (w_st w)))) =
    set_uw_state IDLE (set_uw_is_join_state false (s_stk (w_st w)))) by (destruct (w_st w) as [? ? ? ? [] ?]; reflexivity).
  inv_ok Hc; unfold flag in *; try (exfalso; apply Hn; auto; fail).
  - constructor; unfold ses, stk, end_dl, idle_state, no_view; try (rewrite <- Es); try reflexivity; auto.
  - destruct (tx_done_time_calls (relax E) (w_hist w ++ tx_done_evs1 (w_st w)) (s_mac (w_st w))) as (T1 & T2 & T3).
    constructor; unfold ses, stk; rewrite <- ?Es; try reflexivity.
    + right. split; [assumption|]. reflexivity.
    + left. unfold tx_done_evs. rewrite callbacks_app, T2. reflexivity.
    + unfold tx_done_evs. rewrite mac_calls_app, T1. reflexivity.
    + unfold tx_done_evs. rewrite tx_frames_app, T3. reflexivity.
  - constructor; unfold ses, stk; rewrite <- ?Es; try reflexivity; auto.
  - constructor; unfold ses, stk; rewrite <- ?Es; try reflexivity; auto.
    right. exists ERR_RX_TIMEOUT. split; [discriminate|reflexivity].
  - constructor; unfold ses, stk; rewrite <- ?Es; try reflexivity; auto.
    right. exists ERR_RX_CRC. split; [discriminate|reflexivity].
  - constructor; unfold ses, stk; rewrite <- ?Es; try reflexivity; auto.
    right. exists ERR_RX_CRC. split; [discriminate|reflexivity].
Qed.

(** a reception always returns *)
Lemma rx_total E w m : env_ok E -> e_strict_shl E = false -> Inv (w_st w) -> receives w m ->
  exists es w', step E w (OIrq m) = Some (VUnit, es, w').
Proof.
  intros HE Hns HI (Hs & _). pose proof (irq_ok E m (w_hist w) (w_st w) HE Hns HI) as Hc.
  assert (Hx : exists s' es, evt_handler E m (w_hist w) (w_st w) = Ok (tt, s', es)).
  { unfold stk in Hs. destruct Hc; eauto. destruct Hs; congruence. }
  destruct Hx as (s' & es & Hx). exists es, (Mk_world s' (w_hist w ++ es)). apply call_step. cbn [call].
  unfold as_unit. erewrite bind_ok; [|exact Hx]. cbn [ret addev]. rewrite app_nil_r. reflexivity.
Qed.
