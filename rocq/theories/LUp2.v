(** LUp2.v -- proofs of the uplink properties (C01 - C07, C09, C38, C39). *)
From Verif Require Export LUp.

(** ** The channel table as seen by the specification *)
Lemma chan_on_cbit w i : Inv (w_st w) -> 0 <= i < 16 -> chan_on w i = cbit (s_ch (w_st w)) i.
Proof.
  intros HI Hi. unfold chan_on, cbit. destruct (iv_ch _ HI) as [K1 K2 _ _ _ _].
  destruct (uw_channels_mask (s_ch (w_st w))) as [|a [|b [|]]]; try discriminate.
  inversion K2 as [|x l Ha K2']; subst. inversion K2' as [|x l Hb _]; subst. unfold is_byte in *.
  cbn [unle]. rewrite Z.mul_0_r, Z.add_0_r.
  assert (Hd : i = 8 * (i / 8) + i mod 8) by (apply Z.div_mod; lia).
  pose proof (Z.mod_pos_bound i 8 ltac:(lia)) as Hm.
  assert (Hc : i / 8 = 0 \/ i / 8 = 1) by lia.
  replace (a + 256 * b) with (Z.lor a (Z.shiftl b 8))
    by (rewrite (lor_shiftl_add a b 8); change (2 ^ 8) with 256; lia).
  rewrite Z.lor_spec, Z.shiftl_spec by lia. unfold get.
  destruct Hc as [Hc|Hc]; rewrite Hc.
  - change (nth (Z.to_nat 0) [a; b] 0) with a. replace (i mod 8) with i by lia.
    rewrite (Z.testbit_neg_r b) by lia. apply orb_false_r.
  - change (nth (Z.to_nat 1) [a; b] 0) with b. replace (i mod 8) with (i - 8) by lia.
    rewrite (testbit_small a 8) by lia. reflexivity.
Qed.
Lemma chan_freq_cfreq w i : chan_freq w i = cfreq (s_ch (w_st w)) i.
Proof. reflexivity. Qed.

Lemma same_fields s1 s : same_but_cs s1 s ->
  s_ch s1 = s_ch s /\ s_adr s1 = s_adr s /\ s_mac s1 = s_mac s /\ s_ses s1 = s_ses s /\ s_stk s1 = s_stk s.
Proof. intros (c & ->). auto. Qed.

(** the frame of an uplink, in the words of the specification *)
Definition frame_of (E : env) (w : world) (confirm : bool) (port : Z) (payload : list Z) : list Z :=
  uplink_frame (e_aes E) (e_cmac E) (nwk_s_key (ses w)) (app_s_key (ses w)) (dev_addr (ses w)) (f_cnt_up (ses w))
    confirm (adr_on w) (adr_ack_due w) (ack_required (ses w)) (fopts w) port payload.
Lemma frame_of_send E w p d c s1 : same_but_cs s1 (w_st w) -> send_frame_bytes E p d c s1 = frame_of E w c p d.
Proof. intros (cc & ->). reflexivity. Qed.

(** ** C01 *)
Lemma C01_uplink_layout_pf : forall E w port payload confirm es w',
  env_ok E -> reachable E w -> op_wf (OSend port payload confirm) ->
  step E w (OSend port payload confirm) = Some (VErr ERR_NO, es, w') ->
  tx_frames es =
    [uplink_frame (e_aes E) (e_cmac E) (nwk_s_key (ses w)) (app_s_key (ses w)) (dev_addr (ses w)) (f_cnt_up (ses w))
       confirm (adr_on w) (adr_ack_due w) (ack_required (ses w)) (fopts w) port payload].
Proof.
  intros E w port payload confirm es w' HE Hr Hw H. pose proof (reach_Inv E w HE Hr) as HI.
  pose proof (step_tx E w _ _ _ _ HE HI Hw H) as T. destruct T as [p d c h1 s1 S|A|_ A].
  - destruct (sn_arg _ _ _ _ _ _ _ _ _ _ _ _ S _ _ _ eq_refl) as (-> & -> & -> & -> & ->).
    destruct (sent_obs _ _ _ _ _ _ _ _ _ _ _ _ S) as (-> & _). reflexivity.
  - discriminate.
  - destruct A as [A _]; [left; reflexivity|]. congruence.
Qed.

Lemma C01_every_uplink_pf : forall E w o v es w',
  env_ok E -> reachable E w -> op_wf o -> o <> OJoin ->
  step E w o = Some (v, es, w') ->
  tx_frames es = [] \/
  exists confirm port payload, is_u8 port /\ bytes_ok payload /\ tx_frames es =
    [uplink_frame (e_aes E) (e_cmac E) (nwk_s_key (ses w)) (app_s_key (ses w)) (dev_addr (ses w)) (f_cnt_up (ses w))
       confirm (adr_on w) (adr_ack_due w) (ack_required (ses w)) (fopts w) port payload].
Proof.
  intros E w o v es w' HE Hr Hw Ho H. pose proof (reach_Inv E w HE Hr) as HI.
  pose proof (step_tx E w _ _ _ _ HE HI Hw H) as T. destruct T as [p d c h1 s1 S|A|A _].
  - right. exists c, p, d. split; [apply S|]. split; [apply S|].
    destruct (sent_obs _ _ _ _ _ _ _ _ _ _ _ _ S) as (-> & _).
    rewrite (frame_of_send E w p d c s1) by apply S. reflexivity.
  - congruence.
  - left. exact A.
Qed.

(** ** C02 *)
Lemma slice_app_skip a b c n : length a = n -> slice (a ++ b ++ c) n (length b) = b.
Proof. intros <-. unfold slice. rewrite skipn_app, skipn_all, Nat.sub_diag. cbn [app skipn]. apply firstn_exact. reflexivity. Qed.

Lemma skipn_exact {A} (a b : list A) n : length a = n -> skipn n (a ++ b) = b.
Proof. intros <-. rewrite skipn_app, skipn_all, Nat.sub_diag. reflexivity. Qed.
Lemma fctrl_bits (adr req ack : bool) n : 0 <= n < 16 ->
  let f := 128 * b2z adr + 64 * b2z req + 32 * b2z ack + n in
  f mod 16 = n /\ Z.testbit f 7 = adr /\ Z.testbit f 6 = req /\ Z.testbit f 5 = ack.
Proof.
  intro H.
  assert (Hm : n = 0 \/ n = 1 \/ n = 2 \/ n = 3 \/ n = 4 \/ n = 5 \/ n = 6 \/ n = 7 \/
               n = 8 \/ n = 9 \/ n = 10 \/ n = 11 \/ n = 12 \/ n = 13 \/ n = 14 \/ n = 15) by lia.
  cbv zeta. destruct adr, req, ack; repeat (destruct Hm as [->|Hm]; [repeat split|]); subst n; repeat split.
Qed.
Lemma list_eqb_refl l : list_eqb l l = true.
Proof. unfold list_eqb. destruct (list_eq_dec Z.eq_dec l l); congruence. Qed.

Lemma server_receives aes cmac nwk apk addr cnt confirm adr req ack fo port payload :
  (forall k b, length (aes k b) = 16%nat) -> (forall k m, length (cmac k m) = 16%nat) ->
  0 <= addr < 4294967296 -> 0 <= cnt < 4294967296 -> len fo < 16 ->
  server_receive aes cmac nwk apk addr cnt
    (uplink_frame aes cmac nwk apk addr cnt confirm adr req ack fo port payload) =
  Some (Mk_uplink confirm adr req ack fo (match payload with [] => None | _ => Some (port, payload) end)).
Proof.
  intros Ha Hc Haddr Hcnt Hfo. unfold uplink_frame, sealed.
  set (mh := if confirm then MHDR_CONF_UP else MHDR_UNCONF_UP).
  set (fc := up_fctrl adr req ack fo). set (enc := crypt aes apk UP addr cnt payload).
  set (body := data_body mh addr fc cnt fo port enc).
  set (mic := data_mic cmac nwk UP addr cnt body).
  assert (Hmic : length mic = 4%nat).
  { unfold mic, data_mic. rewrite firstn_length, Hc. reflexivity. }
  assert (Henc : length enc = length payload) by (apply crypt_length; exact Ha).
  set (tail := match enc with [] => [] | _ => port :: enc end).
  assert (Hb : body = [mh] ++ le 4 addr ++ [fc] ++ le 2 cnt ++ fo ++ tail) by reflexivity.
  assert (Hbl : length body = (8 + length fo + length tail)%nat)
    by (rewrite Hb, !app_length, !le_length; cbn [length]; lia).
  destruct (fctrl_bits adr req ack (len fo)) as (F0 & F7 & F6 & F5); [pose proof (len_nonneg fo); lia|].
  assert (Hfc5 : at_ (body ++ mic) 5 = fc).
  { unfold at_. rewrite Hb. cbn [app le]. reflexivity. }
  assert (Hmh : at_ (body ++ mic) 0 = mh) by (rewrite Hb; reflexivity).
  unfold server_receive. rewrite Hfc5, Hmh.
  assert (Hfol : Z.to_nat (fc mod 16) = length fo).
  { unfold fc, up_fctrl. rewrite F0. unfold len. lia. }
  rewrite Hfol.
  assert (Hlen : length (body ++ mic) = (length body + 4)%nat) by (rewrite app_length, Hmic; reflexivity).
  replace (length (body ++ mic) - 4)%nat with (length body) by lia.
  rewrite firstn_exact by reflexivity. rewrite (skipn_exact body mic) by reflexivity.
  fold mic. rewrite list_eqb_refl.
  assert (Hsa : unle (slice (body ++ mic) 1 4) = addr).
  { rewrite Hb. rewrite <- !app_assoc. change 4%nat with (length (le 4 addr)) at 2.
    replace (length (le 4 addr)) with 4%nat by (rewrite le_length; reflexivity).
    pose proof (slice_app_skip [mh] (le 4 addr) ([fc] ++ le 2 cnt ++ fo ++ tail ++ mic) 1 eq_refl) as Hs.
    rewrite le_length in Hs. rewrite Hs, unle_le. apply Z.mod_small. lia. }
  assert (Hsc : unle (slice (body ++ mic) 6 2) = cnt mod 65536).
  { rewrite Hb. rewrite <- !app_assoc.
    pose proof (slice_app_skip ([mh] ++ le 4 addr ++ [fc]) (le 2 cnt) (fo ++ tail ++ mic) 6 ltac:(rewrite !app_length, le_length; reflexivity)) as Hs.
    rewrite le_length in Hs. rewrite <- !app_assoc in Hs. rewrite Hs, unle_le. reflexivity. }
  rewrite Hsa, Hsc, !Z.eqb_refl, Hlen.
  replace (12 <=? length body + 4)%nat with true by (symmetry; apply Nat.leb_le; lia).
  replace (8 + length fo <=? length body)%nat with true by (symmetry; apply Nat.leb_le; lia).
  assert (Hk : (mh =? MHDR_UNCONF_UP) || (mh =? MHDR_CONF_UP) = true) by (unfold mh; destruct confirm; reflexivity).
  rewrite Hk. cbn [andb]. f_equal.
  assert (Hsf : slice (body ++ mic) 8 (length fo) = fo).
  { rewrite Hb. rewrite <- !app_assoc.
    pose proof (slice_app_skip ([mh] ++ le 4 addr ++ [fc] ++ le 2 cnt) fo (tail ++ mic) 8 ltac:(rewrite !app_length, !le_length; reflexivity)) as Hs.
    rewrite <- !app_assoc in Hs. exact Hs. }
  rewrite Hsf.
  assert (Hst : skipn (8 + length fo) body = tail).
  { rewrite Hb. rewrite !app_assoc. apply skipn_exact. rewrite !app_length, !le_length. cbn [length]. lia. }
  rewrite Hst. unfold fc, up_fctrl. rewrite F7, F6, F5.
  f_equal.
  - unfold mh. destruct confirm; reflexivity.
  - unfold tail. destruct enc as [|b e] eqn:Ee.
    + destruct payload; [reflexivity|]. cbn [length] in Henc. discriminate.
    + rewrite <- Ee. destruct payload as [|x l]; [cbn [length] in Henc; discriminate|].
      unfold enc. rewrite crypt_crypt by exact Ha. reflexivity.
Qed.

Lemma C02_server_decodes_pf : forall E w port payload confirm es w',
  env_ok E -> reachable E w -> op_wf (OSend port payload confirm) ->
  step E w (OSend port payload confirm) = Some (VErr ERR_NO, es, w') ->
  exists f, tx_frames es = [f] /\
    server_receive (e_aes E) (e_cmac E) (nwk_s_key (ses w)) (app_s_key (ses w)) (dev_addr (ses w)) (f_cnt_up (ses w)) f =
    Some (Mk_uplink confirm (adr_on w) (adr_ack_due w) (ack_required (ses w)) (fopts w)
            (match payload with [] => None | _ => Some (port, payload) end)).
Proof.
  intros E w port payload confirm es w' HE Hr Hw H. pose proof (reach_Inv E w HE Hr) as HI.
  eexists. split; [eapply C01_uplink_layout_pf; eassumption|].
  apply server_receives.
  - apply (ok_aes_len E HE).
  - apply (ok_cmac_len E HE).
  - apply (sk_addr _ (iv_ses _ HI)).
  - apply (sk_up _ (iv_ses _ HI)).
  - pose proof (queue_len _ (iv_mac _ HI)). pose proof (mk_pos _ (iv_mac _ HI)).
    change (fopts w) with (queue (s_mac (w_st w))). lia.
Qed.
