(** LPhase.v -- the radio transaction of each call. *)
From Verif Require Export SpecWin LCmd.

(** ** Crypto contexts *)
Lemma crypto_run_app a : forall x b, crypto_run x (a ++ b) = match crypto_run x a with Some y => crypto_run y b | None => None end.
Proof. induction a as [|e a IH]; intros x b; [reflexivity|]. cbn [crypto_run app]. destruct (crypto_step x e); [apply IH|reflexivity]. Qed.
Lemma balanced_app a b : crypto_balanced a -> crypto_balanced b -> crypto_balanced (a ++ b).
Proof. unfold crypto_balanced. intros A B. rewrite crypto_run_app, A. exact B. Qed.
Lemma crypto_skip e x : is_crypto e = false -> crypto_step x e = Some x.
Proof. destruct x as [[] []]; destruct e; cbn; discriminate || reflexivity. Qed.
Lemma balanced_none es : Forall (fun e => is_crypto e = false) es -> crypto_balanced es.
Proof.
  unfold crypto_balanced. induction es as [|e es IH]; intro H; [reflexivity|]. cbn [crypto_run].
  rewrite crypto_skip by exact (Forall_inv H). apply IH. exact (Forall_inv_tail H).
Qed.
Lemma balanced_mic k p m : crypto_balanced (mic_evs k p m).
Proof. unfold crypto_balanced, mic_evs. destruct p; reflexivity. Qed.
Lemma block_a_len dir addr cnt i : length (block_a dir addr cnt i) = 16%nat.
Proof. reflexivity. Qed.
Lemma enc_run dir addr cnt n : forall i c, crypto_run (true, c) (enc_evs dir addr cnt i n) = Some (true, c).
Proof. induction n as [|n IH]; intros i c; [reflexivity|]. cbn [enc_evs crypto_run crypto_step]. rewrite block_a_len. apply IH. Qed.
Lemma balanced_crypt k dir addr cnt n : crypto_balanced (crypt_evs k dir addr cnt n).
Proof. unfold crypto_balanced, crypt_evs. cbn [crypto_run crypto_step]. rewrite crypto_run_app, enc_run. reflexivity. Qed.
Lemma balanced_key k kind an ni nonce : crypto_balanced (key_evs k kind an ni nonce).
Proof. reflexivity. Qed.
Lemma sub_len d off n : 0 <= off -> 0 <= n -> off + n <= len d -> length (sub d off n) = Z.to_nat n.
Proof. intros. unfold sub. rewrite firstn_length, skipn_length. unfold len in *. lia. Qed.
Lemma balanced_ja E k d : len d = 17 \/ len d = 33 -> crypto_balanced (ja_evs E k d).
Proof.
  intro L. unfold ja_evs.
  assert (Q : crypto_balanced ([CAesNew k; CAesEnc (sub d 1 16)] ++ (if len d =? 33 then [CAesEnc (sub d 17 16)] else []) ++ [CAesDel])).
  { unfold crypto_balanced. cbn [crypto_run crypto_step app]. rewrite sub_len by lia.
    change (Z.to_nat 16 =? 16)%nat with true. cbv iota. rewrite crypto_run_app.
    destruct (Z.eqb_spec (len d) 33) as [L'|L']; [cbn [app crypto_run crypto_step]; rewrite sub_len by lia|]; reflexivity. }
  pose proof (balanced_app _ _ Q (balanced_mic k [] (ja_msg (ja_dec E k d)))) as R.
  cbn [app] in R. rewrite <- app_assoc in R. exact R.
Qed.

(** ** link *)
Lemma link_app a b : link (a ++ b) = link a ++ link b.
Proof. apply filter_app. Qed.
Lemma link_none es : Forall (fun e => is_link e = false) es -> link es = [].
Proof. induction es as [|e es IH]; intro H; [reflexivity|]. cbn. rewrite (Forall_inv H). apply IH. exact (Forall_inv_tail H). Qed.
Lemma crypto_nolink es : Forall (fun e => is_crypto e = true) es -> Forall (fun e => is_link e = false) es.
Proof. apply Forall_impl. intros []; cbn; intro; reflexivity || discriminate. Qed.
Lemma mac_nolink es : Forall (fun e => is_mac_ev e = true) es -> Forall (fun e => is_link e = false) es.
Proof. apply Forall_impl. intros []; cbn; intro; reflexivity || discriminate. Qed.
Lemma mac_nocrypto es : Forall (fun e => is_mac_ev e = true) es -> Forall (fun e => is_crypto e = false) es.
Proof. apply Forall_impl. intros []; cbn; intro; reflexivity || discriminate. Qed.
Lemma link_mic k p m : link (mic_evs k p m) = [].
Proof. destruct p; reflexivity. Qed.
Lemma link_enc dir addr cnt n : forall i, link (enc_evs dir addr cnt i n) = [].
Proof. induction n as [|n IH]; intro i; [reflexivity|]. cbn. apply IH. Qed.
Lemma link_crypt k dir addr cnt n : link (crypt_evs k dir addr cnt n) = [].
Proof. unfold crypt_evs. cbn. rewrite filter_app. change (filter is_link (enc_evs dir addr cnt 1 (nblocks n))) with (link (enc_evs dir addr cnt 1 (nblocks n))). rewrite link_enc. reflexivity. Qed.
Lemma link_ja E k d : link (ja_evs E k d) = [].
Proof.
  unfold ja_evs. destruct (len d =? 33); reflexivity.
Qed.
Lemma link_rand E h s : link (rand_evs E h s) = [] /\ crypto_balanced (rand_evs E h s).
Proof. unfold rand_evs. destruct (_ =? 0); split; reflexivity. Qed.

Lemma dl_events E h s s' es : env_ok E -> e_strict_shl E = false -> Inv s -> uw_region (s_stk s) <> None ->
  dl_cases E h s (Ok (tt, s', es)) ->
  uw_state (s_stk s') = uw_state (s_stk s) /\ uw_is_join_state (s_stk s') = false /\ pkt_params (s_stk s') = pkt_params (s_stk s) /\
  exists mid r t v, es = RRead (e_pkt E h) :: RSleep :: mid ++ [CbDown r t v] /\ link mid = [] /\ crypto_balanced mid.
Proof.
  intros HE Hns HI Hr H.
  assert (HI1 : Inv (rx_state (rx_data (e_pkt E h)) s))
    by (apply rx_state_Inv; [exact HI|apply (ok_pkt_byte E HE)|apply (ok_pkt_len E HE)]).
  inv_ok H.
  - match goal with H : ja_cases _ _ _ _ |- _ => rename H into J end.
    inv_ok J; (split; [reflexivity|]); (split; [reflexivity|]); (split; [reflexivity|]).
    + exists []. do 3 eexists. split; [reflexivity|]. split; reflexivity.
    + exists []. do 3 eexists. split; [reflexivity|]. split; reflexivity.
    + do 4 eexists. split; [reflexivity|]. split; [apply link_ja|apply balanced_ja; assumption].
    + do 4 eexists. split; [reflexivity|]. split; [rewrite link_app, link_ja; reflexivity|].
      apply balanced_app; [apply balanced_ja; assumption|]. apply balanced_app; apply balanced_key.
  - match goal with H : data_cases _ _ _ _ _ _ _ |- _ => rename H into J end.
    assert (F : forall c, new_cnt (f_cnt_down (s_ses s)) (g16 d 6) = Some c ->
      let cm := d_cmds E (h ++ [RRead rx; RSleep]) d (rx_snr rx) c s1 in
      macfr (d_cnt d (rx_snr rx) c s1) (fst cm) /\ Forall (fun e => is_mac_ev e = true) (snd cm)).
    { intros c Hc. destruct (d_cmds_facts E (h ++ [RRead rx; RSleep]) d (rx_snr rx) c s1 HE Hns HI1 Hr) as (_ & F1 & F2).
      - apply (ok_pkt_byte E HE).
      - apply (ok_pkt_snr E HE).
      - eapply new_cnt_range; [|exact Hc]. apply g16_range. apply (ok_pkt_byte E HE).
      - cbv zeta. auto. }
    assert (K : forall c, uw_state (s_stk (d_cnt d (rx_snr rx) c s1)) = uw_state (s_stk s) /\
      pkt_params (s_stk (d_cnt d (rx_snr rx) c s1)) = pkt_params (s_stk s)).
    { intro c. unfold d_cnt, d_ack. destruct (_ =? 5); split; reflexivity. }
    inv_ok J.
    1-5: unfold d_ack; try destruct (_ =? 5); (split; [reflexivity|]); (split; [reflexivity|]); (split; [reflexivity|]);
         exists []; do 3 eexists; (split; [reflexivity|]); split; reflexivity.
    + match goal with H : new_cnt _ _ = Some ?c |- _ => destruct (F c H) as (F1 & F2); destruct (K c) as (K1 & K2) end.
      destruct F1. split; [exact (eq_trans mf_state K1)|]. split; [reflexivity|]. split; [exact (eq_trans mf_params K2)|].
      do 4 eexists. split; [reflexivity|]. split.
      * rewrite link_app. rewrite (link_none _ (mac_nolink _ F2)). apply link_mic.
      * apply balanced_app; [apply balanced_none, mac_nocrypto; exact F2|apply balanced_mic].
    + match goal with H : new_cnt _ _ = Some ?c |- _ => destruct (F c H) as (F1 & F2); destruct (K c) as (K1 & K2) end.
      destruct F1. split; [exact (eq_trans mf_state K1)|]. split; [reflexivity|]. split; [exact (eq_trans mf_params K2)|].
      do 4 eexists. split; [reflexivity|]. split.
      * rewrite !link_app. rewrite (link_none _ (mac_nolink _ F2)). unfold d_mic_evs. rewrite link_mic. unfold d_dec_evs.
        destruct (_ <=? 1); [reflexivity|apply link_crypt].
      * apply balanced_app; [apply balanced_none, mac_nocrypto; exact F2|]. apply balanced_app; [apply balanced_mic|].
        unfold d_dec_evs. destruct (_ <=? 1); [reflexivity|apply balanced_crypt].
Qed.

(** ** Phases *)
Definition ph (w : world) : stack_state := uw_state (stk w).
Definition up_delay (o : op) (w : world) : Z := match o with OJoin => 5000 | _ => default_rx1_delay (stk w) end.
Definition tx_dr_of (o : op) (w : world) : Z := match o with OJoin => default_dr (stk w) | _ => up_dr w end.
Record same_phase (w w' : world) : Prop := Mk_same_phase {
  sp_state : ph w' = ph w;
  sp_rx1 : uw_rx1_delay (stk w') = uw_rx1_delay (stk w);
  sp_rx2 : uw_rx2_delay (stk w') = uw_rx2_delay (stk w);
  sp_prm : pkt_params (stk w') = pkt_params (stk w);
  sp_join : uw_is_join_state (stk w') = uw_is_join_state (stk w);
  sp_region : uw_region (stk w') = uw_region (stk w)
}.
Inductive phase_case (E : env) (w : world) (o : op) (v : val) (es : list ev) (w' : world) : Prop :=
| PC_init r : o = OInit r -> v = VUnit -> es = init_evs E (w_hist w) -> w_st w' = init_state r (w_st w) -> phase_case E w o v es w'
| PC_tx freq power f : o = OJoin \/ is_uplink_call o = true -> v = VErr ERR_NO -> ph w = IDLE -> ph w' = TX ->
    link es = [RSetFreq freq; RSetup (tx_params (tx_dr_of o w) (pkt_params (stk w))); RSetPower power; RTx f] ->
    (exists pre, es = pre ++ [RTx f]) ->
    uw_rx1_delay (stk w') = up_delay o w -> uw_rx2_delay (stk w') = u32 (up_delay o w + 1000) ->
    pkt_params (stk w') = tx_params (tx_dr_of o w) (pkt_params (stk w)) ->
    uw_is_join_state (stk w') = (match o with OJoin => true | _ => uw_is_join_state (stk w) end) ->
    default_rx1_delay (stk w') = default_rx1_delay (stk w) -> uw_region (stk w') = uw_region (stk w) ->
    phase_case E w o v es w'
| PC_txdone m : o = OIrq m -> v = VUnit -> ph w = TX -> Z.testbit m 2 = true -> time_ok (s_mac (w_st w)) ->
    es = tx_done_evs E (w_hist w) (w_st w) -> w_st w' = tx_done_state E (w_hist w) (w_st w) -> phase_case E w o v es w'
| PC_rx1to m : o = OIrq m -> v = VUnit -> ph w = RX1 -> Z.testbit m 0 = true -> es = rx1_to_evs (w_st w) ->
    w_st w' = rx1_to_state (w_st w) -> phase_case E w o v es w'
| PC_end m pre rd e t vw : o = OIrq m -> v = VUnit -> ph w = RX1 \/ ph w = RX2 -> ph w' = IDLE ->
    es = pre ++ [CbDown e t vw] ->
    link pre = rx_pre w ++ rd ++ [RSleep] ->
    (rd = [RRead (received E w)] /\ receives w m \/ rd = [] /\ ~ receives w m /\ e <> ERR_NO) ->
    uw_is_join_state (stk w') = false -> irqfr (w_st w) (w_st w') -> pkt_params (stk w') = pkt_params (stk w) ->
    (ph w = RX1 -> Z.testbit m 0 = false /\ Z.testbit m 1 = true) ->
    (ph w = RX2 -> Z.testbit m 0 = true \/ Z.testbit m 1 = true) ->
    phase_case E w o v es w'
| PC_timer t : o = OTimer t -> v = VUnit -> es = timer_evs t (w_st w) -> w_st w' = w_st w -> phase_case E w o v es w'
| PC_idle_irq m : o = OIrq m -> v = VUnit -> es = [] -> w_st w' = w_st w ->
    (ph w = NOT_INIT \/ ph w = IDLE \/ (ph w = TX /\ Z.testbit m 2 = false) \/
      ((ph w = RX1 \/ ph w = RX2) /\ Z.testbit m 0 = false /\ Z.testbit m 1 = false)) -> phase_case E w o v es w'
| PC_same : link es = [] -> same_phase w w' ->
    (forall m, o <> OIrq m) -> (forall r, o <> OInit r) -> (forall t, o <> OTimer t) ->
    (o = OJoin \/ is_uplink_call o = true -> v <> VErr ERR_NO /\ default_rx1_delay (stk w') = default_rx1_delay (stk w)) ->
    ((forall d, o <> OSetRx1Delay d) -> default_rx1_delay (stk w') = default_rx1_delay (stk w)) ->
    phase_case E w o v es w'.

Lemma send_link E h p d c s : link (send_events E h p d c s) =
  [RSetFreq (next_freq E h s); RSetup (tx_params (cur_dr s) (pkt_params (s_stk s))); RSetPower (p_power s); RTx (send_frame_bytes E p d c s)].
Proof.
  unfold send_events. cbv zeta. rewrite !link_app. destruct (link_rand E h s) as [-> _].
  assert (Q : link (if len d =? 0 then [] else crypt_evs (app_s_key (s_ses s)) UP (dev_addr (s_ses s)) (f_cnt_up (s_ses s)) (length d)) = [])
    by (destruct (_ =? 0); [reflexivity|apply link_crypt]).
  rewrite Q, link_mic. reflexivity.
Qed.
Lemma join_link E h s : link (join_events E h s) =
  [RSetFreq (next_freq E h s); RSetup (tx_params (default_dr (s_stk s)) (pkt_params (s_stk s))); RSetPower (p_power s); RTx (join_bytes E (join_nonce E h s) s)].
Proof.
  unfold join_events. cbv zeta. rewrite !link_app. destruct (link_rand E h s) as [-> _]. rewrite link_mic. reflexivity.
Qed.
Lemma send_balanced E h p d c s : crypto_balanced (send_events E h p d c s).
Proof.
  unfold send_events. cbv zeta. repeat apply balanced_app; try reflexivity.
  - apply link_rand.
  - destruct (_ =? 0); [reflexivity|apply balanced_crypt].
Qed.
Lemma join_balanced E h s : crypto_balanced (join_events E h s).
Proof. unfold join_events. cbv zeta. repeat apply balanced_app; try reflexivity. apply link_rand. Qed.

Lemma irq_phase E w m es w' v : env_ok E -> Inv (w_st w) -> step E w (OIrq m) = Some (v, es, w') ->
  phase_case E w (OIrq m) v es w' /\ crypto_balanced es.
Proof.
  intros HE HI H. pose proof H as H0. apply step_irq in H; [|assumption..]. destruct H as (-> & H).
  pose proof (relax_ok E HE) as HEr. pose proof (relax_ns E) as Hns. pose proof (irq_fr _ _ _ _ _ _ HEr Hns HI H) as Fr.
  remember (w_st w') as sw eqn:Esw.
  assert (No : forall m', ~ receives w m' \/ receives w m') by (intro m'; destruct (recv_dec w m'); auto).
  inv_ok H; unfold flag in *.
  - split; [|reflexivity]. apply (PC_idle_irq _ _ _ _ _ _ m); auto.
  - split.
    + apply (PC_txdone _ _ _ _ _ _ m); auto. 
    + apply balanced_none. unfold tx_done_evs. apply Forall_app. split; [repeat constructor|]. unfold tx_done_time.
      destruct (mac_save_dev_time _); [|constructor]. destruct (mac_cbs _) as [cb|]; [|constructor]. destruct (has_get_device_time cb); repeat constructor.
  - split; [|reflexivity]. apply (PC_rx1to _ _ _ _ _ _ m); auto.
  - split; [|reflexivity]. eapply (PC_end _ _ _ _ _ _ m [RSleep] [] ERR_RX_TIMEOUT 0 _ eq_refl eq_refl).
    + right. exact H.
    + unfold ph, stk. rewrite <- Es. reflexivity.
    + reflexivity.
    + unfold rx_pre, stk. rewrite H. reflexivity.
    + right. split; [reflexivity|]. split; [|discriminate]. unfold receives. intros (_ & Q & _). congruence.
    + unfold stk. rewrite <- Es. reflexivity.
    + exact Fr.
    + unfold stk. rewrite <- Es. reflexivity.
    + unfold ph, stk. congruence.
    + auto.
  - split; [|reflexivity]. eapply (PC_end _ _ _ _ _ _ m [TStop TIMER_RX2; RSleep] [] ERR_RX_CRC 0 _ eq_refl eq_refl).
    + left. exact H.
    + unfold ph, stk. rewrite <- Es. reflexivity.
    + reflexivity.
    + unfold rx_pre, stk. rewrite H. reflexivity.
    + right. split; [reflexivity|]. split; [|discriminate]. unfold receives. intros (_ & _ & _ & Q). congruence.
    + unfold stk. rewrite <- Es. reflexivity.
    + exact Fr.
    + unfold stk. rewrite <- Es. reflexivity.
    + auto.
    + auto.
  - split; [|reflexivity]. eapply (PC_end _ _ _ _ _ _ m [RSleep] [] ERR_RX_CRC 0 _ eq_refl eq_refl).
    + right. exact H.
    + unfold ph, stk. rewrite <- Es. reflexivity.
    + reflexivity.
    + unfold rx_pre, stk. rewrite H. reflexivity.
    + right. split; [reflexivity|]. split; [|discriminate]. unfold receives. intros (_ & _ & _ & Q). congruence.
    + unfold stk. rewrite <- Es. reflexivity.
    + exact Fr.
    + unfold stk. rewrite <- Es. reflexivity.
    + auto.
    + auto.
  - assert (R : receives w m) by (unfold receives, stk; auto).
    match goal with H : dl_cases _ _ _ _ |- _ => rename H into D end.
    destruct (dl_events _ _ _ _ _ HEr Hns (idle_Inv' w HI (or_introl H)) (idle_region' w HI (or_introl H)) D)
      as (D1 & D2 & D3 & mid & r & t & vw & D4 & D5 & D6).
    subst. split.
    + eapply (PC_end _ _ _ _ _ _ m (TStop TIMER_RX2 :: RRead _ :: RSleep :: mid) [RRead _] r t vw eq_refl eq_refl).
      * left. exact H.
      * exact D1.
      * reflexivity.
      * unfold rx_pre, stk. rewrite H. cbn [link filter is_link app]. change (filter is_link mid) with (link mid). rewrite D5. reflexivity.
      * left. split; [|exact R]. unfold received, rx_hist, stk. rewrite H. reflexivity.
      * exact D2.
      * exact Fr.
      * exact D3.
      * auto.
      * auto.
    + change (TStop TIMER_RX2 :: RRead (e_pkt (relax E) (w_hist w ++ [TStop TIMER_RX2])) :: RSleep :: mid ++ [CbDown r t vw])
        with ([TStop TIMER_RX2; RRead (e_pkt (relax E) (w_hist w ++ [TStop TIMER_RX2])); RSleep] ++ mid ++ [CbDown r t vw]).
      apply balanced_app; [reflexivity|]. apply balanced_app; [exact D6|reflexivity].
  - assert (R : receives w m) by (unfold receives, stk; auto).
    match goal with H : dl_cases _ _ _ _ |- _ => rename H into D end.
    destruct (dl_events _ _ _ _ _ HEr Hns (idle_Inv' w HI (or_intror H)) (idle_region' w HI (or_intror H)) D)
      as (D1 & D2 & D3 & mid & r & t & vw & D4 & D5 & D6).
    subst. split.
    + eapply (PC_end _ _ _ _ _ _ m (RRead _ :: RSleep :: mid) [RRead _] r t vw eq_refl eq_refl).
      * right. exact H.
      * exact D1.
      * reflexivity.
      * unfold rx_pre, stk. rewrite H. cbn [link filter is_link app]. change (filter is_link mid) with (link mid). rewrite D5. reflexivity.
      * left. split; [|exact R]. unfold received, rx_hist, stk. rewrite H, app_nil_r. reflexivity.
      * exact D2.
      * exact Fr.
      * exact D3.
      * intro Q. unfold ph, stk in Q. congruence.
      * auto.
    + change (RRead (e_pkt (relax E) (w_hist w)) :: RSleep :: mid ++ [CbDown r t vw])
        with ([RRead (e_pkt (relax E) (w_hist w)); RSleep] ++ mid ++ [CbDown r t vw]).
      apply balanced_app; [reflexivity|]. apply balanced_app; [exact D6|reflexivity].
Qed.

Lemma cs_nolink es : Forall (fun x => is_cs_ev x = true) es -> link es = [] /\ crypto_balanced es.
Proof.
  intro H. split.
  - apply link_none. revert H. apply Forall_impl. intros []; cbn; intro; reflexivity || discriminate.
  - apply balanced_none. revert H. apply Forall_impl. intros []; cbn; intro; reflexivity || discriminate.
Qed.
Lemma send_pre E h p d c s : exists pre, send_events E h p d c s = pre ++ [RTx (send_frame_bytes E p d c s)].
Proof. unfold send_events. cbv zeta. eexists. rewrite !app_assoc. reflexivity. Qed.
Lemma join_pre E h s : exists pre, join_events E h s = pre ++ [RTx (join_bytes E (join_nonce E h s) s)].
Proof. unfold join_events. cbv zeta. eexists. rewrite !app_assoc. reflexivity. Qed.

Lemma tx_of_link es : tx_frames (link es) = tx_frames es.
Proof. induction es as [|e es IH]; [reflexivity|]. unfold link in *. destruct e; cbn; rewrite ?IH; reflexivity. Qed.
Lemma cb_of_link es : callbacks (link es) = callbacks es.
Proof. induction es as [|e es IH]; [reflexivity|]. unfold link in *. destruct e; cbn; rewrite ?IH; reflexivity. Qed.
Lemma send_quiet E p d c h s e s' es : send_cases E p d c h s (Ok (e, s', es)) -> tx_frames es = [] -> link es = [] /\ crypto_balanced es.
Proof.
  intros H A. inv_ok H; try (split; reflexivity); try apply link_rand.
  exfalso. rewrite <- tx_of_link, send_link in A. discriminate.
Qed.
Lemma join_quiet E h s e s' es : join_cases E h s (Ok (e, s', es)) -> tx_frames es = [] -> link es = [] /\ crypto_balanced es.
Proof.
  intros H A. inv_ok H; try (split; reflexivity); try apply link_rand.
  exfalso. rewrite <- tx_of_link, join_link in A. discriminate.
Qed.

Lemma step_phase E w o v es w' : env_ok E -> Inv (w_st w) -> op_wf o -> step E w o = Some (v, es, w') ->
  phase_case E w o v es w' /\ crypto_balanced es.
Proof.
  intros HE HI Hw H. pose proof (step_tx E w o v es w' HE HI Hw H) as T.
  destruct T as [p d c h1 s1 S|A B C D F G|A B].
  - destruct S as [Hcall Hv Hpre Hsame Hidle _ _ _ Hst _ _ _ _]. destruct Hsame as (cc & ->).
    assert (Hj : o <> OJoin) by (intros ->; discriminate).
    assert (Hb : link es = link (send_events E h1 p d c (on_cs (fun _ => cc) (w_st w))) /\ crypto_balanced es /\
      exists pre, es = pre ++ [RTx (send_frame_bytes E p d c (on_cs (fun _ => cc) (w_st w)))]).
    { destruct (send_pre E h1 p d c (on_cs (fun _ => cc) (w_st w))) as (pre & Ep).
      destruct Hpre as [(_ & ->)|(t & _ & ->)].
      - split; [reflexivity|]. split; [apply send_balanced|]. eauto.
      - split; [reflexivity|]. split; [apply (balanced_app [KUnixtime t]); [reflexivity|apply send_balanced]|].
        exists (KUnixtime t :: pre). rewrite Ep. reflexivity. }
    destruct Hb as (Hl & Hb & Hp). split; [|exact Hb]. rewrite send_link in Hl.
    assert (Qd : tx_dr_of o w = cur_dr (on_cs (fun _ => cc) (w_st w))) by (destruct o; try reflexivity; contradiction).
    assert (Qe : up_delay o w = default_rx1_delay (stk w)) by (destruct o; try reflexivity; contradiction).
    eapply PC_tx; [right; exact Hcall|exact Hv|exact Hidle|unfold ph, stk; rewrite Hst; reflexivity|rewrite Hl, Qd; reflexivity|exact Hp|..];
      unfold stk; rewrite Hst, ?Qd, ?Qe; try reflexivity.
    destruct o; try reflexivity; contradiction.
  - subst. split; [|apply join_balanced].
    eapply PC_tx; [left; reflexivity|reflexivity|exact C|unfold ph, stk; rewrite F; reflexivity|rewrite join_link; reflexivity|apply join_pre|..];
      unfold stk; rewrite F; reflexivity.
  - pose proof H as H0. apply step_inv in H; try assumption. remember (w_st w') as sw eqn:Esw.
    assert (SP : forall o' : op, (exists cc, w_st w' = on_cs (fun _ => cc) (w_st w)) -> same_phase w w' /\ default_rx1_delay (stk w') = default_rx1_delay (stk w)).
    { intros _ (cc & Q). unfold ph, stk. split; [constructor|]; unfold ph, stk; rewrite Q; reflexivity. }
    assert (Fin : forall o', o' = o -> link es = [] -> same_phase w w' /\ default_rx1_delay (stk w') = default_rx1_delay (stk w) ->
       o = OJoin \/ is_uplink_call o = true -> phase_case E w o v es w').
    { intros o' _ L (S1 & S2) Ho. apply PC_same; auto.
      - intros m ->. destruct Ho; discriminate.
      - intros m ->. destruct Ho; discriminate.
      - intros m ->. destruct Ho; discriminate.
      - intros Q. destruct (B ltac:(tauto)) as (B1 & _). auto. }
    assert (Q1 : is_uplink_call o = true \/ o = OJoin -> same_but_cs sw (w_st w)) by (intro Q; apply B; exact Q).
    destruct H as [o v s' H|r|e s' es H|p d c e s' es H|t|m s' es H|e b n p es s' H1 H2 H3|a e H1 H2|a e s' es H1 H|e H1 H2|e s' es H1 H].
    + assert (Q : same_phase w w' /\ ((forall d, o <> OSetRx1Delay d) -> default_rx1_delay (stk w') = default_rx1_delay (stk w)) /\
        (forall m, o <> OIrq m) /\ (forall r, o <> OInit r) /\ (forall t, o <> OTimer t) /\ o <> OJoin /\ is_uplink_call o = false).
      { unfold stk. destruct o; cbn [simple] in H; try discriminate;
        repeat match type of H with context [if ?b then _ else _] => lazymatch b with p_fits _ _ => fail | _ => destruct b end end;
        injection H as <- <-; (split; [constructor; unfold ph, stk; rewrite <- Esw; reflexivity|]);
        (split; [intro Nd; rewrite <- Esw; try reflexivity; exfalso; exact (Nd _ eq_refl)|]); repeat split; intros; discriminate. }
      destruct Q as (A1 & A2 & A3 & A4 & A5 & A6 & A7). split; [|reflexivity].
      apply PC_same; auto. intros [?|?]; congruence.
    + split; [|reflexivity]. apply (PC_init _ _ _ _ _ _ r); auto.
    + destruct (join_quiet _ _ _ _ _ _ H A) as (Q2 & Q3). split; [|exact Q3]. apply (Fin OJoin eq_refl Q2); [|auto]. apply (SP OJoin). rewrite <- Esw. apply Q1. auto.
    + destruct (send_quiet _ _ _ _ _ _ _ _ _ H A) as (Q2 & Q3). split; [|exact Q3]. apply (Fin _ eq_refl Q2); [|auto]. apply (SP OJoin). rewrite <- Esw. apply Q1. auto.
    + split; [apply (PC_timer _ _ _ _ _ _ t); auto|]. unfold timer_evs. destruct (uw_state _), t; reflexivity.
    + apply irq_phase; assumption.
    + destruct (cs_nolink _ H3) as (Q2 & Q3). split; [|exact Q3].
      destruct (SP OJoin) as (S1 & S2); [exists (s_cs s'); rewrite <- Esw; exact H1|].
      apply PC_same; auto; try discriminate. intros [?|?]; discriminate.
    + split; [|reflexivity]. apply (Fin _ eq_refl eq_refl); [|auto]. apply (SP OJoin). rewrite <- Esw. apply Q1. auto.
    + assert (A' : tx_frames es = []) by exact A. destruct (send_quiet _ _ _ _ _ _ _ _ _ H A') as (Q2 & Q3).
      split; [|apply (balanced_app [KUnixtime _]); [reflexivity|exact Q3]].
      apply (Fin _ eq_refl Q2); [|auto]. apply (SP OJoin). rewrite <- Esw. apply Q1. auto.
    + split; [|reflexivity]. apply (Fin _ eq_refl eq_refl); [|auto]. apply (SP OJoin). rewrite <- Esw. apply Q1. auto.
    + destruct (send_quiet _ _ _ _ _ _ _ _ _ H A) as (Q2 & Q3). split; [|exact Q3]. apply (Fin _ eq_refl Q2); [|auto]. apply (SP OJoin). rewrite <- Esw. apply Q1. auto.
Qed.
