(** LUp4.v -- proofs of the result-code, refusal, channel and power properties
    (C04 - C07, C25, C39). *)
From Verif Require Export LIrq Demo.

Lemma simple_step E w o v s' : Inv (w_st w) -> op_wf o -> simple o (w_st w) = Some (v, s') ->
  step E w o = Some (v, [], Mk_world s' (w_hist w)).
Proof.
  intros HI Hw Hs. erewrite call_step by (apply simple_ok; eassumption). rewrite app_nil_r. reflexivity.
Qed.
Lemma step_join_total E w : env_ok E -> Inv (w_st w) ->
  exists e es w', step E w OJoin = Some (VErr e, es, w').
Proof.
  intros HE HI. pose proof (join_cases_ok E (w_hist w) (w_st w) HE HI) as H.
  assert (Hx : exists e s' es, uwan_join E (w_hist w) (w_st w) = Ok (e, s', es)) by (destruct H; eauto).
  destruct Hx as (e & s' & es & Hx). exists e, es, (Mk_world s' (w_hist w ++ es)). apply call_step.
  cbn [call]. unfold as_err. erewrite bind_ok; [|exact Hx]. cbn [ret addev]. rewrite app_nil_r. reflexivity.
Qed.
Lemma world_eta w : Mk_world (w_st w) (w_hist w) = w.
Proof. destruct w; reflexivity. Qed.


Lemma next_freq_cases E h w s1 : Inv (w_st w) -> s_ch s1 = s_ch (w_st w) ->
  (exists i, 0 <= i < 16 /\ chan_on w i = true /\ next_freq E h s1 = chan_freq w i /\
     860000000 <= next_freq E h s1 <= 870000000) \/
  (next_freq E h s1 = 0 /\ no_channel w).
Proof.
  intros HI Hc. unfold next_freq. rewrite Hc.
  destruct (p_next_cases (s_ch (w_st w)) (e_rand E h) (iv_ch _ HI)) as [(i & A & B & C & D)|(A & B)].
  - left. exists i. rewrite chan_on_cbit by assumption. auto.
  - right. split; [exact A|]. intros i Hi. rewrite chan_on_cbit by assumption. auto.
Qed.
Lemma no_some w : no_channel w -> some_channel w -> False.
Proof. intros H (i & Hi & Ho). rewrite (H i Hi) in Ho. discriminate. Qed.

Lemma queue_nil m : mac_ok m -> (mac_buf_pos m = 0 <-> queue m = []).
Proof.
  intro H. pose proof (queue_len m H) as Hq. unfold len in Hq. split; intro A.
  - destruct (queue m); [reflexivity|]. cbn [length] in Hq. lia.
  - rewrite A in Hq. cbn in Hq. lia.
Qed.

(** ** C04 *)

Lemma C04_max_payload_pf : forall E w,
  env_ok E -> reachable E w ->
  step E w OGetMax = Some (VNum (max_payload w), [], w) /\ 36 <= max_payload w <= 222.
Proof.
  intros E w HE Hr. pose proof (reach_Inv E w HE Hr) as HI.
  assert (Hm : max_payload w = p_max (w_st w)).
  { unfold max_payload, p_max. change (fopts w) with (queue (s_mac (w_st w))).
    rewrite (queue_len _ (iv_mac _ HI)). reflexivity. }
  split.
  - rewrite (simple_step E w OGetMax _ _ HI I eq_refl), Hm, world_eta. reflexivity.
  - rewrite Hm. pose proof (mk_pos _ (iv_mac _ HI)). pose proof (dr_max_range (cur_dr (w_st w))). unfold p_max. lia.
Qed.


Lemma max_p w : Inv (w_st w) -> max_payload w = p_max (w_st w).
Proof.
  intro HI. unfold max_payload, p_max. change (fopts w) with (queue (s_mac (w_st w))).
  rewrite (queue_len _ (iv_mac _ HI)). reflexivity.
Qed.
Lemma len_0 (l : list Z) : len l = 0 <-> l = [].
Proof. unfold len. destruct l; cbn; split; intro; try reflexivity; try discriminate; lia. Qed.

Lemma C04_result_code_pf : forall E w port payload confirm,
  env_ok E -> reachable E w -> op_wf (OSend port payload confirm) -> idle w ->
  exists e es w', step E w (OSend port payload confirm) = Some (VErr e, es, w') /\ send_result w payload e.
Proof.
  intros E w p d c HE Hr Hw Hi. pose proof (reach_Inv E w HE Hr) as HI.
  destruct (step_send_total E w p d c HE HI Hw) as (e & es & w' & Hs). exists e, es, w'. split; [exact Hs|].
  destruct (step_send E w p d c _ _ _ HE HI Hw Hs) as (e' & He & Hc). injection He as ->.
  unfold idle, stk in Hi.
  assert (Hq : mac_buf_pos (s_mac (w_st w)) = 0 <-> fopts w = []) by apply (queue_nil _ (iv_mac _ HI)).
  pose proof (next_freq_cases E (w_hist w) w (w_st w) HI eq_refl) as Hn.
  assert (Hso : next_freq E (w_hist w) (w_st w) <> 0 -> some_channel w).
  { intro Hz. destruct Hn as [(i & A & B & _)|(A & _)]; [exists i; auto|contradiction]. }
  inv_ok Hc.
  - contradiction.
  - apply SR_channel. destruct Hn as [(i & A & B & C & D)|(_ & A)]; [|exact A]. lia.
  - apply SR_len; [auto|]. rewrite max_p by exact HI. rewrite len_0 in *. tauto.
  - apply SR_ok; [auto| |]. { rewrite max_p by exact HI. assumption. }
    rewrite len_0 in *. destruct d; [|left; discriminate]. right. intro X. apply Hq in X. tauto.
Qed.

Lemma C04_frame_size_pf : forall E w o v es w' f,
  env_ok E -> reachable E w -> op_wf o -> step E w o = Some (v, es, w') ->
  In f (tx_frames es) -> 12 <= len f <= 235.
Proof.
  intros E w o v es w' f HE Hr Hw H Hin. pose proof (reach_Inv E w HE Hr) as HI.
  pose proof (step_tx E w o v es w' HE HI Hw H) as T. destruct T as [p d c h1 s1 S|A B C D F G|A B].
  - destruct (sent_obs _ _ _ _ _ _ _ _ _ _ _ _ S) as (Ht & _). rewrite Ht in Hin. destruct Hin as [<-|[]].
    pose proof (send_body_length E p d c s1 HE (sn_Inv _ _ _ _ _ _ _ _ _ _ _ _ S) (sn_len _ _ _ _ _ _ _ _ _ _ _ _ S)) as Hb.
    change (send_frame_bytes E p d c s1) with
      (send_body E p d c s1 ++ data_mic (e_cmac E) (nwk_s_key (s_ses s1)) UP (dev_addr (s_ses s1)) (f_cnt_up (s_ses s1)) (send_body E p d c s1)).
    assert (8 <= length (send_body E p d c s1))%nat by (unfold send_body; rewrite data_body_length; lia).
    unfold len. rewrite app_length. unfold data_mic. rewrite (firstn4_length E) by exact HE. lia.
  - subst es. rewrite (proj1 (join_obs E _ _)) in Hin. destruct Hin as [<-|[]].
    unfold join_bytes, join_request. unfold len.
    rewrite !app_length, (firstn4_length E) by exact HE. rewrite rev_length, le_length.
    destruct (iv_stk _ HI). unfold len in *. cbn [length]. lia.
  - rewrite A in Hin. destruct Hin.
Qed.

(** ** C05 *)
Lemma C05_refused_inert_pf : forall E w o e es w',
  env_ok E -> reachable E w -> op_wf o -> (exists p d c, o = OSend p d c) \/ o = OJoin ->
  step E w o = Some (VErr e, es, w') -> e <> ERR_NO ->
  w_st w' = w_st w /\ (es = [] \/ exists r, es = [LRand r]).
Proof.
  intros E w o e es w' HE Hr Hw Ho H He. pose proof (reach_Inv E w HE Hr) as HI.
  assert (Hra : forall E h s, rand_evs E h s = [] \/ exists r, rand_evs E h s = [LRand r])
    by (intros; unfold rand_evs; destruct (_ =? 0); eauto).
  destruct Ho as [(p & d & c & ->)| ->].
  - destruct (step_send E w p d c _ _ _ HE HI Hw H) as (e' & He' & Hc). injection He' as ->.
    inv_ok Hc; try contradiction; auto.
  - destruct (step_join E w _ _ _ HE HI H) as (e' & He' & Hc). injection He' as ->.
    inv_ok Hc; try contradiction; auto.
Qed.
Lemma C05_busy_pf : forall E w o,
  env_ok E -> reachable E w -> op_wf o -> (exists p d c, o = OSend p d c) \/ o = OJoin ->
  ~ idle w -> step E w o = Some (VErr ERR_STATE, [], w).
Proof.
  intros E w o HE Hr Hw Ho Hi. pose proof (reach_Inv E w HE Hr) as HI. unfold idle, stk in Hi.
  destruct Ho as [(p & d & c & ->)| ->].
  - rewrite (call_step E w (OSend p d c) (VErr ERR_STATE) [] (w_st w)), app_nil_r, world_eta; [reflexivity|].
    cbn [call]. unfold as_err. erewrite bind_ok0 by (apply send_state_err; exact Hi). reflexivity.
  - pose proof (join_cases_ok E (w_hist w) (w_st w) HE HI) as Hc.
    rewrite (call_step E w OJoin (VErr ERR_STATE) [] (w_st w)), app_nil_r, world_eta; [reflexivity|].
    cbn [call]. unfold as_err. assert (Hj : uwan_join E (w_hist w) (w_st w) = Ok (ERR_STATE, w_st w, @nil ev)) by (destruct Hc; try contradiction; reflexivity).
    erewrite bind_ok0 by exact Hj. reflexivity.
Qed.

(** ** C06, C39: what is programmed for a transmission *)

Lemma crypto_off es : Forall (fun e => is_crypto e = true) es -> forallb off_radio es = true.
Proof. intro H. apply forallb_forall. intros x Hx. rewrite Forall_forall in H. specialize (H x Hx). destruct x; cbn in H; try discriminate; reflexivity. Qed.
Lemma rand_off E h s : forallb off_radio (rand_evs E h s) = true.
Proof. unfold rand_evs. destruct (_ =? 0); reflexivity. Qed.

Lemma off_freqs es : forallb off_radio es = true -> freqs es = [].
Proof. induction es as [|x l IH]; [reflexivity|]. cbn [forallb]. intro H. apply andb_prop in H. destruct H as (H1 & H2). destruct x; try discriminate H1; exact (IH H2). Qed.

Lemma send_transmits E h p d c s :
  transmits (send_events E h p d c s) (next_freq E h s) (tx_params (cur_dr s) (pkt_params (s_stk s))) (p_power s)
    (send_frame_bytes E p d c s).
Proof.
  unfold transmits, send_events. cbv zeta.
  eexists (rand_evs E h s), _. split.
  - do 2 f_equal. rewrite app_assoc. reflexivity.
  - split; [apply rand_off|]. apply crypto_off. apply Forall_app. split.
    + destruct (_ =? 0); [apply Forall_nil|]. apply crypt_evs_crypto.
    + apply mic_evs_crypto.
Qed.
Lemma join_transmits E h s :
  transmits (join_events E h s) (next_freq E h s) (tx_params (default_dr (s_stk s)) (pkt_params (s_stk s))) (p_power s)
    (join_bytes E (join_nonce E h s) s).
Proof.
  unfold transmits, join_events. cbv zeta.
  eexists (rand_evs E h s), (_ :: _). split.
  - rewrite <- !app_assoc. cbn [app]. reflexivity.
  - split; [apply rand_off|]. cbn [forallb off_radio]. apply crypto_off, mic_evs_crypto.
Qed.

Lemma transmits_pre es x f prm p frm : off_radio x = true -> transmits es f prm p frm -> transmits (x :: es) f prm p frm.
Proof.
  intros Hx (pre & mid & -> & A & M). exists (x :: pre), mid. split; [reflexivity|]. split; [|exact M].
  cbn [forallb]. rewrite Hx. exact A.
Qed.

Lemma tx_modulation s dr : Inv s -> uw_state (s_stk s) = IDLE ->
  tx_params dr (pkt_params (s_stk s)) = uplink_modulation dr.
Proof.
  intros HI Hi. destruct (tk_init _ (iv_stk _ HI)) as (_ & _ & A & B & C & D); [congruence|].
  unfold tx_params, uplink_modulation. rewrite A, B, C, D. reflexivity.
Qed.

(** every call that hands a frame to the radio *)
Lemma step_transmits E w o v es w' : env_ok E -> Inv (w_st w) -> op_wf o -> step E w o = Some (v, es, w') ->
  tx_frames es <> [] ->
  exists i f, 0 <= i < 16 /\ chan_on w i = true /\ 860000000 <= chan_freq w i <= 870000000 /\
    transmits es (chan_freq w i) (uplink_modulation (match o with OJoin => default_dr (stk w) | _ => up_dr w end))
      (s8 (default_max_eirp (stk w) - 2 * uw_tx_power (stk w))) f.
Proof.
  intros HE HI Hw H Hf. pose proof (step_tx E w o v es w' HE HI Hw H) as T.
  destruct T as [p d c h1 s1 S|A B C D F G|A B]; [| |contradiction].
  - destruct S as [Hcall _ Hpre Hsame Hidle Hfr _ _ _ _ _ HI1 _].
    destruct (same_fields _ _ Hsame) as (F1 & F2 & F3 & F4 & F5).
    destruct (next_freq_cases E h1 w s1 HI F1) as [(i & A & B & C & D)|(A & _)]; [|contradiction].
    exists i, (send_frame_bytes E p d c s1). rewrite <- C. repeat (split; [assumption|]).
    pose proof (send_transmits E h1 p d c s1) as X. rewrite tx_modulation in X by assumption.
    assert (Hdr : cur_dr s1 = match o with OJoin => default_dr (stk w) | _ => up_dr w end).
    { unfold cur_dr. rewrite F2, F4, F5. destruct o; try reflexivity. discriminate. }
    rewrite <- Hdr. unfold stk. rewrite <- F5.
    destruct Hpre as [(_ & ->)|(t & _ & ->)]; [exact X|]. apply transmits_pre; [reflexivity|exact X].
  - subst o es. destruct (next_freq_cases E (w_hist w) w (w_st w) HI eq_refl) as [(i & A1 & B1 & C1 & D1)|(A1 & _)]; [|contradiction].
    exists i, (join_bytes E (join_nonce E (w_hist w) (w_st w)) (w_st w)). rewrite <- C1. repeat (split; [assumption|]).
    pose proof (join_transmits E (w_hist w) (w_st w)) as X. rewrite tx_modulation in X by assumption. exact X.
Qed.

Lemma C06_enabled_legal_channel_pf : forall E w o v es w',
  env_ok E -> reachable E w -> op_wf o -> step E w o = Some (v, es, w') -> tx_frames es <> [] ->
  exists i prm power f, 0 <= i < 16 /\ chan_on w i = true /\ 860000000 <= chan_freq w i <= 870000000 /\
    transmits es (chan_freq w i) prm power f.
Proof.
  intros E w o v es w' HE Hr Hw H Hf.
  destruct (step_transmits E w o v es w' HE (reach_Inv E w HE Hr) Hw H Hf) as (i & f & A & B & C & D).
  exists i. eauto 8.
Qed.

(** the channel calls, index by index *)
Lemma r_enable_spec i en c : chans_ok c -> is_u8 i ->
  (forall j, 0 <= j < 16 -> cbit (snd (r_enable i en c)) j =
     if (i <? 16) && negb (en && (cfreq c i =? 0)) && (j =? i) then en else cbit c j) /\
  (forall j, 0 <= j < 16 -> cfreq (snd (r_enable i en c)) j = cfreq c j).
Proof.
  intros Hc Hi. unfold is_u8 in Hi. unfold r_enable.
  destruct (Z.leb_spec 16 i). { replace (i <? 16) with false by lia. split; reflexivity. }
  replace (i <? 16) with true by lia. destruct en; cbn [andb].
  - destruct (Z.eqb_spec (cfreq c i) 0); [split; reflexivity|]. cbn [snd negb andb].
    destruct (p_enable_spec i c Hc ltac:(lia) ltac:(assumption)) as (_ & A & B & _). split.
    + intros j Hj. rewrite (A j Hj). destruct (j =? i); reflexivity.
    + intros j Hj. unfold cfreq. rewrite B. reflexivity.
  - cbn [snd negb andb]. destruct (p_disable_spec i c Hc ltac:(lia)) as (_ & A & B). split.
    + intros j Hj. rewrite (A j Hj). destruct (j =? i); reflexivity.
    + intros j Hj. unfold cfreq. rewrite B. reflexivity.
Qed.
Lemma r_set_spec i f c : chans_ok c -> is_u8 i ->
  (forall j, 0 <= j < 16 -> cbit (snd (r_set i f c)) j =
     if (i <? 16) && ((860000000 <=? f) && (f <=? 870000000)) && (j =? i) then true else cbit c j) /\
  (forall j, 0 <= j < 16 -> cfreq (snd (r_set i f c)) j =
     if (i <? 16) && ((860000000 <=? f) && (f <=? 870000000)) && (j =? i) then f else cfreq c j).
Proof.
  intros Hc Hi. unfold is_u8 in Hi. unfold r_set.
  destruct (Z.leb_spec 16 i). { replace (i <? 16) with false by lia. split; reflexivity. }
  replace (i <? 16) with true by lia.
  assert (Hv : is_valid_frequency f = (860000000 <=? f) && (f <=? 870000000))
    by (unfold is_valid_frequency, FREQ_MIN, FREQ_MAX; lia).
  rewrite Hv. destruct ((860000000 <=? f) && (f <=? 870000000)) eqn:Ef; cbn [negb andb snd]; [|split; reflexivity].
  destruct (p_set_spec i f c Hc ltac:(lia) ltac:(lia)) as (_ & A & B). split; [|exact B].
  intros j Hj. rewrite (A j Hj). destruct (j =? i); reflexivity.
Qed.

(** a channel's frequency is what was last assigned to it: by uwan_set_channel,
    by uwan_init (region defaults) or by a received frame *)
Lemma C06_frequency_assigned_pf : forall E w o v es w' i,
  env_ok E -> reachable E w -> op_wf o -> step E w o = Some (v, es, w') -> 0 <= i < 16 ->
  chan_freq w' i <> chan_freq w i ->
  o = OSetChannel i (chan_freq w' i) \/ (exists r, o = OInit r) \/ (exists m, o = OIrq m).
Proof.
  intros E w o v es w' i HE Hr Hw H Hi Hne. pose proof (reach_Inv E w HE Hr) as HI.
  apply step_inv in H; try assumption. rewrite !chan_freq_cfreq in *. destruct H; eauto.
  - destruct o; cbn [simple] in H; try discriminate;
      try (exfalso; repeat match type of H with context [if ?b then _ else _] => destruct b end;
           injection H as <- <-; apply Hne; reflexivity).
    + exfalso. injection H as <- <-. apply Hne.
      apply (proj2 (r_enable_spec index enable (s_ch (w_st w)) (iv_ch _ HI) Hw) i Hi).
    + injection H as <- <-. left. destruct Hw as [Hw1 Hw2].
      destruct (r_set_spec index frequency (s_ch (w_st w)) (iv_ch _ HI) Hw1) as (_ & Hf).
      change (s_ch (with_ch (snd (r_set index frequency (s_ch (w_st w)))) (w_st w))) with (snd (r_set index frequency (s_ch (w_st w)))) in *.
      rewrite (Hf i Hi) in Hne. rewrite (Hf i Hi).
      destruct (_ && _ && (i =? index)) eqn:Eb; [|contradiction].
      apply andb_prop in Eb. destruct Eb as [_ Eb]. apply Z.eqb_eq in Eb. subst. reflexivity.
  - exfalso. inv_ok H; apply Hne; reflexivity.
  - exfalso. inv_ok H; apply Hne; reflexivity.
  - exfalso. apply Hne. reflexivity.
  - exfalso. rewrite H in Hne. apply Hne. reflexivity.
  - exfalso. apply Hne. reflexivity.
  - exfalso. inv_ok H0; apply Hne; reflexivity.
  - exfalso. apply Hne. reflexivity.
  - exfalso. inv_ok H0; apply Hne; reflexivity.
Qed.

(** ** C07 *)
Lemma with_rand_ok draw E : env_ok E -> 0 <= draw < 2147483648 -> env_ok (with_rand draw E).
Proof. intros [] Hd. constructor; try assumption. intro. exact Hd. Qed.

Lemma next_draw draw E h w s1 : Inv (w_st w) -> s_ch s1 = s_ch (w_st w) -> 0 <= draw < 16 -> chan_on w draw = true ->
  next_freq (with_rand draw E) h s1 = chan_freq w draw /\ next_freq (with_rand draw E) h s1 <> 0.
Proof.
  intros HI Hc Hd Ho. rewrite chan_on_cbit in Ho by assumption.
  assert (A : next_freq (with_rand draw E) h s1 = chan_freq w draw).
  { unfold next_freq. rewrite Hc. cbn [with_rand e_rand]. rewrite p_next_draw; [reflexivity|apply HI|assumption..]. }
  split; [exact A|]. rewrite A, chan_freq_cfreq. apply (ck_on _ (iv_ch _ HI)); assumption.
Qed.

Lemma C07_every_channel_selectable_pf : forall E w i o,
  env_ok E -> reachable E w -> op_wf o -> idle w -> 0 <= i < 16 -> chan_on w i = true ->
  o = OJoin \/ (exists port payload confirm, o = OSend port payload confirm /\
                 len payload <= max_payload w /\ payload <> []) ->
  exists draw es w', 0 <= draw < 2147483648 /\ env_ok (with_rand draw E) /\
    step (with_rand draw E) w o = Some (VErr ERR_NO, es, w') /\ freqs es = [chan_freq w i].
Proof.
  intros E w i o HE Hr Hw Hi Hr16 Hon Ho. pose proof (reach_Inv E w HE Hr) as HI. unfold idle, stk in Hi.
  exists i. pose proof (with_rand_ok i E HE ltac:(lia)) as HE'.
  destruct (next_draw i E (w_hist w) w (w_st w) HI eq_refl Hr16 Hon) as [N1 N2].
  destruct Ho as [->|(p & d & c & -> & Hl & Hne)].
  - destruct (step_join_total (with_rand i E) w HE' HI) as (e & es & w' & Hs).
    destruct (step_join _ w _ _ _ HE' HI Hs) as (e' & He & Hc). injection He as ->.
    inv_ok Hc; try contradiction. do 2 eexists. split; [lia|]. split; [exact HE'|]. split; [exact Hs|].
    rewrite (proj1 (proj2 (proj2 (join_obs _ _ _)))), N1. reflexivity.
  - destruct (step_send_total (with_rand i E) w p d c HE' HI Hw) as (e & es & w' & Hs).
    destruct (step_send _ w p d c _ _ _ HE' HI Hw Hs) as (e' & He & Hc). injection He as ->.
    rewrite (max_p w HI) in Hl.
    inv_ok Hc; try contradiction.
    + rewrite len_0 in *. destruct H1 as [H1|[H1 _]]; [lia|contradiction].
    + do 2 eexists. split; [lia|]. split; [exact HE'|]. split; [exact Hs|].
      rewrite (proj1 (proj2 (proj2 (send_obs _ _ _ _ _ _)))), N1. reflexivity.
Qed.

(** ** C25 *)
Lemma C25_join_request_pf : forall E w es w',
  env_ok E -> reachable E w -> step E w OJoin = Some (VErr ERR_NO, es, w') ->
  exists nonce, 0 <= nonce < 65536 /\ uw_dev_nonce (stk w') = nonce /\
    tx_frames es = [join_request (e_cmac E) (uw_app_eui (stk w)) (uw_dev_eui (stk w)) (uw_app_key (stk w)) nonce].
Proof.
  intros E w es w' HE Hr H. pose proof (reach_Inv E w HE Hr) as HI.
  destruct (step_join E w _ _ _ HE HI H) as (e' & He & Hc). injection He as <-.
  remember (w_st w') as s' eqn:Es'. unfold stk at 1. rewrite <- Es'. clear Es'. inv_ok Hc.
  exists (join_nonce E (w_hist w) (w_st w)). split; [apply Z.mod_pos_bound; lia|]. split; [reflexivity|].
  rewrite (proj1 (join_obs _ _ _)). reflexivity.
Qed.
Lemma crypto_draw es : Forall (fun e => is_crypto e = true) es -> filter is_draw es = [].
Proof. induction 1 as [|x l Hx _ IH]; [reflexivity|]. destruct x; cbn in Hx; try discriminate; exact IH. Qed.
Lemma C25_join_request2_pf : forall E w es w',
  env_ok E -> reachable E w -> step E w OJoin = Some (VErr ERR_NO, es, w') ->
  exists c r, filter is_draw es = [LRand c; LRand r] /\ uw_dev_nonce (stk w') = r mod 65536 /\
    tx_frames es = [join_request (e_cmac E) (uw_app_eui (stk w)) (uw_dev_eui (stk w)) (uw_app_key (stk w)) (r mod 65536)].
Proof.
  intros E w es w' HE Hr H. pose proof (reach_Inv E w HE Hr) as HI.
  destruct (step_join E w _ _ _ HE HI H) as (e' & He & Hc). injection He as <-.
  remember (w_st w') as s' eqn:Es'. unfold stk at 1. rewrite <- Es'. clear Es'. inv_ok Hc.
  assert (M : uw_channels_max_count (s_ch (w_st w)) =? 0 = false). { destruct (_ =? 0) eqn:M; [|reflexivity]. exfalso. apply H1. unfold next_freq, p_next. rewrite M. reflexivity. }
  eexists _, _. split; [|split; [|rewrite (proj1 (join_obs _ _ _)); unfold join_bytes, join_nonce; reflexivity]].
  - unfold join_events. cbv zeta. rewrite !filter_app. rewrite (crypto_draw (mic_evs _ _ _)) by apply mic_evs_crypto.
    unfold rand_evs at 1. rewrite M. cbn [filter is_draw app]. reflexivity.
  - reflexivity.
Qed.
(** the identifiers are those last given with uwan_set_otaa_keys *)
Lemma C25_otaa_keys_pf : forall E w o v es w',
  env_ok E -> reachable E w -> op_wf o -> step E w o = Some (v, es, w') ->
  let ids w := (uw_dev_eui (stk w), uw_app_eui (stk w), uw_app_key (stk w)) in
  match o with
  | OSetOtaa d a k => ids w' = (d, a, k)
  | _ => ids w' = ids w
  end.
Proof.
  intros E w o v es w' HE Hr Hw H ids. pose proof (reach_Inv E w HE Hr) as HI.
  apply step_inv in H; try assumption. unfold ids, stk. destruct H; try reflexivity.
  - destruct o; cbn [simple] in H; try discriminate;
      repeat match type of H with context [if ?b then _ else _] => destruct b end;
      injection H as <- <-; reflexivity.
  - inv_ok H; reflexivity.
  - inv_ok H; reflexivity.
  - apply irq_fr in H; [|apply relax_ok; exact HE|reflexivity|exact HI]. destruct H. congruence.
  - rewrite H. reflexivity.
  - inv_ok H0; reflexivity.
  - inv_ok H0; reflexivity.
Qed.

(** ** C39 *)
Lemma C39_tx_power_partial_pf : forall E w o v es w',
  env_ok E -> reachable E w -> op_wf o -> step E w o = Some (v, es, w') -> tx_frames es <> [] ->
  -128 <= default_max_eirp (stk w) - 2 * uw_tx_power (stk w) ->
  exists freq prm f,
    transmits es freq prm (default_max_eirp (stk w) - 2 * uw_tx_power (stk w)) f.
Proof.
  intros E w o v es w' HE Hr Hw H Hf Hp. pose proof (reach_Inv E w HE Hr) as HI.
  destruct (step_transmits E w o v es w' HE HI Hw H Hf) as (i & f & A & B & C & D).
  pose proof (tk_txp _ (iv_stk _ HI)). pose proof (tk_eirp _ (iv_stk _ HI)). unfold stk in *.
  rewrite s8_id in D by lia. eauto.
Qed.
Lemma C39_tx_power_refuted_pf : exists E w o v es w',
  env_ok E /\ reachable E w /\ op_wf o /\ step E w o = Some (v, es, w') /\
  (tx_frames es <> [] /\ powers es = [126] /\ default_max_eirp (stk w) - 2 * uw_tx_power (stk w) = -130).
Proof.
  apply (refute (fun E w o v es w' => tx_frames es <> [] /\ powers es = [126] /\ default_max_eirp (stk w) - 2 * uw_tx_power (stk w) = -130)
    (demo [] []) (abp 0 0 ++ [OSetEirp (-128); OSetTxp 1]) (OSend 1 [1] false)
    (fun w v es w' => negb (is_nil (tx_frames es)) && list_eqb (powers es) [126] &&
       (default_max_eirp (stk w) - 2 * uw_tx_power (stk w) =? -130))).
  - apply demo_ok.
  - vm_compute. reflexivity.
  - intros w v es w' F. apply andb_prop in F. destruct F as [F F3]. apply andb_prop in F. destruct F as [F1 F2].
    split; [destruct (tx_frames es); [discriminate|discriminate]|]. split; [apply list_eqb_eq; exact F2|apply Z.eqb_eq; exact F3].
Qed.
