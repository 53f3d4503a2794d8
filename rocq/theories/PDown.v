(** PDown.v -- exact descriptions of the downlink handlers and the radio events. *)
From Verif Require Export PUp.

Lemma memeq_spec a : forall b, memeq a b = true <-> a = b.
Proof.
  induction a as [|x a IH]; destruct b as [|y b]; cbn [memeq]; split; intro H; try discriminate; try reflexivity.
  - apply andb_prop in H. destruct H as [H1 H2]. apply Z.eqb_eq in H1. apply IH in H2. congruence.
  - injection H as -> ->. rewrite Z.eqb_refl. cbn. apply IH. reflexivity.
Qed.

Lemma get_over d F i : 0 <= i < len d -> get (over d F) i = get d i.
Proof. intro H. unfold get, over. rewrite app_nth1; [reflexivity|]. unfold len in H. lia. Qed.
Lemma fget d F i h s : frame s = over d F -> length F = 255%nat -> 0 <= i < len d -> len d <= 255 ->
  frame_get i h s = Ok (get d i, s, []).
Proof.
  intros Hf HF Hi Hd. rewrite frame_get_ok.
  - rewrite Hf, get_over by exact Hi. reflexivity.
  - rewrite Hf. unfold len in *. rewrite over_len; lia.
Qed.
Lemma firstn_over d F n : (n <= length d)%nat -> firstn n (over d F) = firstn n d.
Proof. intro H. unfold over. rewrite firstn_app. replace (n - length d)%nat with 0%nat by lia. cbn. apply app_nil_r. Qed.
Lemma skipn_app_le (d q : list Z) n : (n <= length d)%nat -> skipn n (d ++ q) = skipn n d ++ q.
Proof. intro H. rewrite skipn_app. replace (n - length d)%nat with 0%nat by lia. reflexivity. Qed.
Lemma sub_over_in d F off n : 0 <= off -> 0 <= n -> off + n <= len d -> sub (over d F) off n = sub d off n.
Proof.
  intros H1 H2 H3. unfold sub, over. unfold len in H3. rewrite skipn_app_le by lia.
  rewrite firstn_app. rewrite skipn_length.
  replace (Z.to_nat n - (length d - Z.to_nat off))%nat with 0%nat by lia. cbn. apply app_nil_r.
Qed.
Lemma fread d F off n h s : frame s = over d F -> length F = 255%nat -> len d <= 255 ->
  0 <= off -> 0 <= n -> off + n <= len d ->
  frame_read off n h s = Ok (sub d off n, s, []).
Proof.
  intros Hf HF Hd H1 H2 H3. rewrite frame_read_ok; try assumption.
  - rewrite Hf, sub_over_in by assumption. reflexivity.
  - rewrite Hf. unfold len in *. rewrite over_len; lia.
Qed.

(** 16, 24 and 32-bit fields *)
Definition g24 (d : list Z) (i : Z) : Z := get d i + 256 * get d (i + 1) + 65536 * get d (i + 2).
Definition g32 (d : list Z) (i : Z) : Z := g24 d i + 16777216 * get d (i + 3).
Definition g16 (d : list Z) (i : Z) : Z := get d i + 256 * get d (i + 1).
Lemma g32_range d i : bytes_ok d -> 0 <= g32 d i < 4294967296.
Proof.
  intro H. unfold g32, g24. pose proof (bytes_get d i H). pose proof (bytes_get d (i+1) H).
  pose proof (bytes_get d (i+2) H). pose proof (bytes_get d (i+3) H). unfold is_byte in *. lia.
Qed.
Lemma g24_range d i : bytes_ok d -> 0 <= g24 d i < 16777216.
Proof.
  intro H. unfold g24. pose proof (bytes_get d i H). pose proof (bytes_get d (i+1) H).
  pose proof (bytes_get d (i+2) H). unfold is_byte in *. lia.
Qed.
Lemma g16_range d i : bytes_ok d -> 0 <= g16 d i < 65536.
Proof.
  intro H. unfold g16. pose proof (bytes_get d i H). pose proof (bytes_get d (i+1) H). unfold is_byte in *. lia.
Qed.

(** ** Session keys *)
Definition key_evs (key : list Z) (kind an ni nonce : Z) : list ev :=
  [CAesNew key; CAesEnc ([kind] ++ le 3 an ++ le 3 ni ++ le 2 nonce ++ repeat 0 7); CAesDel].
Lemma derive_ok E kind an ni h s :
  derive_session_key E kind an ni h s =
    Ok (session_key (e_aes E) kind (uw_app_key (s_stk s)) an ni (uw_dev_nonce (s_stk s)), s,
        key_evs (uw_app_key (s_stk s)) kind an ni (uw_dev_nonce (s_stk s))).
Proof.
  unfold derive_session_key. msteps. unfold ret. rewrite !addev_addev. cbn [addev].
  unfold session_key, key_evs. rewrite !le3, le2. reflexivity.
Qed.

Definition new_session (dr addr up down : Z) (nwk app : list Z) : session :=
  Mk_session true false dr addr up down nwk app.
Lemma blit_all l src : length l = length src -> blit l 0 src = src.
Proof.
  intro H. unfold blit. cbn [Z.to_nat firstn app Nat.add]. rewrite <- H, skipn_all, app_nil_r. reflexivity.
Qed.
Lemma set_session_ok addr up down nwk app h s : ses_ok (s_ses s) ->
  length nwk = 16%nat -> length app = 16%nat ->
  uwan_set_session addr up down nwk app h s =
    Ok (tt, with_ses (new_session (default_dr (s_stk s)) addr up down nwk app) s, []).
Proof.
  intros Hs Hn Ha. unfold uwan_set_session. msteps.
  erewrite bind_ok0.
  2: { apply arr_memcpy_ok; try lia; unfold len.
       - cbn. rewrite (sk_nwk _ Hs). lia.
       - lia. }
  msteps. erewrite bind_ok0.
  2: { apply arr_memcpy_ok; try lia; unfold len.
       - cbn. rewrite (sk_app _ Hs). lia.
       - lia. }
  msteps. change (Z.to_nat 16) with 16%nat.
  rewrite (firstn_all2 nwk), (firstn_all2 app) by lia.
  cbn [s_ses on_ses nwk_s_key app_s_key set_nwk_s_key set_app_s_key set_dev_addr set_f_cnt_up set_f_cnt_down set_ack_required set_ses_dr].
  rewrite !blit_all by (rewrite ?(sk_nwk _ Hs), ?(sk_app _ Hs); congruence). reflexivity.
Qed.

(** ** Join-accept *)
Definition ja_blocks (n : Z) : nat := if n =? 33 then 2%nat else 1%nat.
(** the decrypted frame *)
Definition ja_dec (E : env) (key d : list Z) : list Z :=
  firstn 1 d ++ blocks (e_aes E) key (ja_blocks (len d)) (skipn 1 d).
Definition ja_msg (D : list Z) : list Z := firstn (length D - 4) D.
Definition ja_mic (D : list Z) : list Z := skipn (length D - 4) D.
Definition ja_evs (E : env) (key d : list Z) : list ev :=
  CAesNew key :: CAesEnc (sub d 1 16) :: (if len d =? 33 then [CAesEnc (sub d 17 16)] else []) ++
  CAesDel :: mic_evs key [] (ja_msg (ja_dec E key d)).
Definition ja_off (D : list Z) : Z := (get D 11 / 16) mod 8.
Definition ja_rx2 (D : list Z) : Z := get D 11 mod 16.
Definition ja_delay (D : list Z) : Z := let d := get D 12 mod 16 in if d =? 0 then 1 else d.
Definition ja_stk (D : list Z) (k : stackst) : stackst :=
  set_default_rx1_delay (1000 * ja_delay D)
    (set_uw_rx2_dr (if ja_rx2 D <? 6 then ja_rx2 D else uw_rx2_dr k)
      (set_uw_rx1_offset (if ja_off D <? 6 then ja_off D else uw_rx1_offset k) k)).
Definition ja_ch (r : region) (D : list Z) (c : chans) : chans :=
  if len D =? 33 then p_cf r (sub D 13 16) c else c.
Definition ja_ses (E : env) (D : list Z) (s : st) : session :=
  let k := s_stk s in
  new_session (default_dr k) (g32 D 7) 0 0
    (session_key (e_aes E) 1 (uw_app_key k) (g24 D 1) (g24 D 4) (uw_dev_nonce k))
    (session_key (e_aes E) 2 (uw_app_key k) (g24 D 1) (g24 D 4) (uw_dev_nonce k)).
Definition ja_state (E : env) (r : region) (D : list Z) (s : st) : st :=
  Mk_st (ja_ch r D (s_ch s)) (s_adr s) (s_mac s) (ja_ses E D s) (ja_stk D (s_stk s)) (s_cs s).

Inductive ja_cases (E : env) (d : list Z) (s : st) : res (err * st * list ev) -> Prop :=
| JA_len : len d <> 17 -> len d <> 33 -> ja_cases E d s (Ok (ERR_MSG_LEN, s, []))
| JA_mhdr : len d = 17 \/ len d = 33 -> get d 0 <> 32 -> ja_cases E d s (Ok (ERR_MSG_MHDR, s, []))
| JA_mic : len d = 17 \/ len d = 33 -> get d 0 = 32 ->
    let key := uw_app_key (s_stk s) in let D := ja_dec E key d in
    ja_mic D <> firstn 4 (e_cmac E key (ja_msg D)) ->
    ja_cases E d s (Ok (ERR_MSG_MIC, with_frame (over D (frame s)) s, ja_evs E key d))
| JA_ok : forall r, len d = 17 \/ len d = 33 -> get d 0 = 32 -> uw_region (s_stk s) = Some r ->
    let key := uw_app_key (s_stk s) in let D := ja_dec E key d in
    ja_mic D = firstn 4 (e_cmac E key (ja_msg D)) ->
    ja_cases E d s (Ok (ERR_NO, ja_state E r D (with_frame (over D (frame s)) s),
      ja_evs E key d ++ key_evs key 1 (g24 D 1) (g24 D 4) (uw_dev_nonce (s_stk s)) ++
      key_evs key 2 (g24 D 1) (g24 D 4) (uw_dev_nonce (s_stk s)))).

Lemma blocks_length E key n : env_ok E -> forall l, length (blocks (e_aes E) key n l) = (16 * n)%nat.
Proof.
  intro HE. induction n; intro l; cbn [blocks]; [reflexivity|].
  rewrite app_length, (ok_aes_len E HE), IHn. lia.
Qed.
Lemma ja_dec_length E key d : env_ok E -> len d = 17 \/ len d = 33 -> length (ja_dec E key d) = length d.
Proof.
  intros HE H. unfold ja_dec. rewrite app_length, blocks_length by exact HE. rewrite firstn_length. unfold ja_blocks, len in *.
  destruct H as [H|H]; rewrite H; cbn [Z.eqb Pos.eqb]; lia.
Qed.
Lemma blocks_bytes E key n : env_ok E -> forall l, bytes_ok (blocks (e_aes E) key n l).
Proof.
  intro HE. induction n; intro l; cbn [blocks]; [constructor|].
  apply bytes_app. split; [apply (ok_aes_byte E HE)|apply IHn].
Qed.
Lemma ja_dec_bytes E key d : env_ok E -> bytes_ok d -> bytes_ok (ja_dec E key d).
Proof.
  intros HE Hd. unfold ja_dec. apply bytes_app. split; [apply bytes_firstn; exact Hd|apply blocks_bytes; exact HE].
Qed.

Lemma frame_aes_ok E key p b q F h s : env_ok E -> frame s = over (p ++ b ++ q) F -> length F = 255%nat ->
  length b = 16%nat -> (length (p ++ b ++ q) <= 255)%nat ->
  frame_aes E key (len p) h s = Ok (tt, with_frame (over (p ++ e_aes E key b ++ q) F) s, [CAesEnc b]).
Proof.
  intros HE Hf HF Hb Hl. unfold frame_aes.
  assert (Hlf : len (frame s) = 255) by (rewrite Hf; unfold len; rewrite over_len; lia).
  rewrite !app_length in Hl.
  erewrite bind_ok0; [|apply frame_read_ok; [apply len_nonneg|lia|unfold len in *; lia]].
  assert (Hs : sub (frame s) (len p) 16 = b).
  { rewrite Hf. unfold sub, over, len. rewrite Nat2Z.id. rewrite <- !app_assoc.
    rewrite skipn_app, skipn_all, Nat.sub_diag. cbn [app skipn].
    rewrite firstn_app. change (Z.to_nat 16) with 16%nat. rewrite Hb, Nat.sub_diag, firstn_O, app_nil_r.
    apply firstn_all2. lia. }
  rewrite Hs, bind_emit.
  pose proof (ok_aes_len E HE key b) as Ha.
  rewrite frame_memcpy_ok; try lia; try (unfold len in *; lia).
  cbn [addev]. rewrite Hf. change (Z.to_nat 16) with 16%nat. rewrite <- Ha at 1. rewrite firstn_all.
  replace (over (p ++ b ++ q) F) with (p ++ (b ++ q ++ skipn (length (p ++ b ++ q)) F))
    by (unfold over; rewrite <- !app_assoc; reflexivity).
  rewrite blit_prefix by (rewrite app_length; lia).
  rewrite Ha, <- Hb. rewrite skipn_app, skipn_all, Nat.sub_diag. cbn [skipn app].
  unfold over. rewrite !app_length, Ha, Hb, <- !app_assoc. reflexivity.
Qed.

Lemma mhdr_shift b : is_byte b -> Z.land (Z.shiftr b 5) 7 = b / 32.
Proof.
  intro H. rewrite land_7, shiftr_div by lia. change (2 ^ 5) with 32. apply Z.mod_small.
  unfold is_byte in H. split; [apply Z.div_pos; lia|]. apply Z.div_lt_upper_bound; lia.
Qed.

Lemma handle_join_ok E d rssi snr F h s : env_ok E -> e_strict_shl E = false -> Inv s ->
  uw_region (s_stk s) <> None -> bytes_ok d -> len d <= 255 -> frame s = over d F -> length F = 255%nat ->
  ja_cases E d s (handle_join_msg E (Mk_pkt (Some 0) (len d) 0 rssi snr) h s).
Proof.
  intros HE Hns HI Hreg Hd Hl Hf HF.
  destruct (uw_region (s_stk s)) as [rg|] eqn:Erg; [clear Hreg|congruence].
  unfold handle_join_msg. cbn [pk_size].
  assert (Hn : (len d = 17 \/ len d = 33) \/ (len d <> 17 /\ len d <> 33)) by lia.
  destruct Hn as [Hn|[Hn1 Hn2]].
  2: { replace ((len d =? 17) || (len d =? 33)) with false by lia. cbn [negb]. constructor; assumption. }
  replace ((len d =? 17) || (len d =? 33)) with true by lia. cbn [negb].
  bstep ltac:(apply (fget d F); try assumption; lia).
  change (Z.lor (Z.shiftl MTYPE_JOIN_ACCEPT 5) 0) with 32.
  destruct (Z.eqb_spec (get d 0) 32) as [Hh|Hh]; cbn [negb].
  2: { apply JA_mhdr; assumption. }
  msteps. set (key := uw_app_key (s_stk s)). set (D := ja_dec E key d).
  assert (HDl : length D = length d) by (apply ja_dec_length; assumption).
  assert (HDb : bytes_ok D) by (apply ja_dec_bytes; assumption).
  (* the decryption *)
  match goal with |- context [bind (frame_aes E key 1) ?k0 ?hh s] =>
    assert (Hdec : exists h3, bind (frame_aes E key 1) k0 hh s =
       addev (CAesEnc (sub d 1 16) :: (if len d =? 33 then [CAesEnc (sub d 17 16)] else []) ++ [CAesDel])
        (bind (calc_mic E (u8 (len d - 4)) key 0 false)
          (fun mic => got <- frame_read (len d - 4) 4 ;;
             (if negb (memeq got mic) then ret ERR_MSG_MIC else
  b1 <- frame_get 1 ;; b2 <- frame_get 2 ;; b3 <- frame_get 3 ;;
  let app_nonce := Z.lor (Z.lor b1 (Z.shiftl b2 8)) (Z.shiftl b3 16) in
  b4 <- frame_get 4 ;; b5 <- frame_get 5 ;; b6 <- frame_get 6 ;;
  let net_id := Z.lor (Z.lor b4 (Z.shiftl b5 8)) (Z.shiftl b6 16) in
  b7 <- frame_get 7 ;; b8 <- frame_get 8 ;; b9 <- frame_get 9 ;; b10 <- frame_get 10 ;;
  b10s <- shl24 E b10 ;;
  let addr := u32 (Z.lor (Z.lor (Z.lor b7 (Z.shiftl b8 8)) (Z.shiftl b9 16)) b10s) in
  dl_settings <- frame_get 11 ;;
  let rx1_dr_offset := Z.land (Z.shiftr dl_settings 4) 7 in
  let rx2_dr := Z.land dl_settings 15 in
  (if is_valid_dr rx1_dr_offset then mod_stk (set_uw_rx1_offset rx1_dr_offset) else ret tt) ;;;
  (if is_valid_dr rx2_dr then mod_stk (set_uw_rx2_dr rx2_dr) else ret tt) ;;;
  b12 <- frame_get 12 ;;
  let rx1_delay := Z.land b12 15 in
  let rx1_delay := if rx1_delay =? 0 then 1 else rx1_delay in
  mod_stk (set_default_rx1_delay (u32 (rx1_delay * 1000))) ;;;
  (if len d =? 33 then
     r <- deref_hal ;;
     fl <- frame_read 13 16 ;;
     region_handle_cflist r fl
   else ret tt) ;;;
  nwk <- derive_session_key E 1 app_nonce net_id ;;
  app <- derive_session_key E 2 app_nonce net_id ;;
  uwan_set_session addr 0 0 nwk app ;;;
  ret ERR_NO)) h3 (with_frame (over D F) s))) end.
  { assert (Hd1 : d = firstn 1 d ++ sub d 1 16 ++ skipn 17 d).
    { unfold sub. change (Z.to_nat 16) with 16%nat. change (Z.to_nat 1) with 1%nat.
      change (skipn 17 d) with (skipn (1 + 16) d). rewrite <- skipn_skipn'.
      rewrite firstn_skipn, firstn_skipn. reflexivity. }
    assert (L1 : length (firstn 1 d) = 1%nat) by (rewrite firstn_length; unfold len in *; lia).
    assert (L2 : length (sub d 1 16) = 16%nat) by (unfold sub; rewrite firstn_length, skipn_length; unfold len in *; lia).
    erewrite bind_ok.
    2: { match goal with |- frame_aes _ _ ?x _ _ = _ => replace x with (len (firstn 1 d)) by (unfold len; rewrite L1; reflexivity) end.
         apply (frame_aes_ok E key (firstn 1 d) (sub d 1 16) (skipn 17 d) F); try assumption.
         - rewrite <- Hd1. exact Hf.
         - rewrite <- Hd1. unfold len in *. lia. }
    destruct Hn as [Hn|Hn]; rewrite Hn; cbn [Z.eqb Pos.eqb].
    - rewrite bind_ret, bind_emit, addev_addev. eexists.
      replace (firstn 1 d ++ e_aes E key (sub d 1 16) ++ skipn 17 d) with D.
      2: { unfold D, ja_dec, ja_blocks. rewrite Hn. cbn [Z.eqb Pos.eqb blocks].
           rewrite (skipn_all2 (n:=17) d) by (unfold len in *; lia). reflexivity. }
      reflexivity.
    - set (p2 := firstn 1 d ++ e_aes E key (sub d 1 16)).
      assert (Lp2 : length p2 = 17%nat) by (unfold p2; rewrite app_length, L1, (ok_aes_len E HE); reflexivity).
      assert (Hd2 : skipn 17 d = sub d 17 16 ++ []).
      { unfold sub. change (Z.to_nat 16) with 16%nat. change (Z.to_nat 17) with 17%nat.
        rewrite app_nil_r, firstn_all2; [reflexivity|]. rewrite skipn_length. unfold len in *. lia. }
      erewrite bind_ok.
      2: { match goal with |- frame_aes _ _ ?x _ _ = _ => replace x with (len p2) by (unfold len; rewrite Lp2; reflexivity) end.
           apply (frame_aes_ok E key p2 (sub d 17 16) [] F); try assumption.
           - rewrite frame_with. unfold p2. rewrite <- !app_assoc, Hd2. reflexivity.
           - unfold sub. rewrite firstn_length, skipn_length. unfold len in *. lia.
           - rewrite !app_length, Lp2. unfold sub. rewrite firstn_length. cbn [length]. lia. }
      rewrite bind_emit, !addev_addev, with_frame2. eexists.
      replace (p2 ++ e_aes E key (sub d 17 16) ++ []) with D.
      2: { unfold D, ja_dec, ja_blocks, p2. rewrite Hn. cbn [Z.eqb Pos.eqb blocks].
           rewrite <- !app_assoc. unfold sub. change (Z.to_nat 16) with 16%nat. change (Z.to_nat 17) with 17%nat. change (Z.to_nat 1) with 1%nat.
           rewrite skipn_skipn'. reflexivity. }
      reflexivity. }
  destruct Hdec as [h3 ->]. rewrite addev_addev.
  set (s1 := with_frame (over D F) s).
  assert (Hf1 : frame s1 = over D F) by reflexivity.
  assert (HDz : len D = len d) by (unfold len; lia).
  rewrite u8_id by lia.
  erewrite bind_ok.
  2: { apply (calc_mic_plain_ok E (len d - 4) key 0 (ja_msg D)).
       - rewrite Hf1. unfold len in *. rewrite over_len; lia.
       - rewrite Hf1, sub_over_in by lia. unfold sub, ja_msg. cbn [Z.to_nat skipn]. f_equal. unfold len. lia. }
  rewrite addev_addev.
  match goal with |- context [addev ?l _] => replace l with (ja_evs E key d)
     by (unfold ja_evs; fold D; cbn [app]; rewrite <- !app_assoc; reflexivity) end.
  match goal with |- context [bind (frame_read _ _) _ ?hh _] => set (h4 := hh) end.
  assert (Hov : over D (frame s) = over D F).
  { unfold over. f_equal. rewrite Hf. unfold over. rewrite HDl, skipn_app, skipn_all, Nat.sub_diag. reflexivity. }
  bstep ltac:(apply (fread D F); try assumption; lia).
  assert (Hjm : sub D (len d - 4) 4 = ja_mic D).
  { unfold sub, ja_mic. rewrite firstn_all2; [f_equal; unfold len; lia|]. rewrite skipn_length. unfold len in *. lia. }
  rewrite Hjm. destruct (memeq (ja_mic D) (firstn 4 (e_cmac E key (ja_msg D)))) eqn:Em; cbn [negb].
  2: { unfold ret. cbn [addev]. rewrite app_nil_r. unfold s1. rewrite <- Hov. apply JA_mic; try assumption.
       intro Hc. apply memeq_spec in Hc. fold key in Hc. fold D in Hc. congruence. }
  apply memeq_spec in Em.
  assert (Hby : forall i, is_byte (get D i)) by (intro; apply bytes_get; assumption).
  do 3 (bstep ltac:(apply (fget D F); try assumption; lia)). cbv zeta. rewrite le24 by apply Hby.
  do 3 (bstep ltac:(apply (fget D F); try assumption; lia)). rewrite le24 by apply Hby.
  do 4 (bstep ltac:(apply (fget D F); try assumption; lia)).
  unfold shl24. rewrite Hns. cbn [andb]. msteps. rewrite le32 by apply Hby.
  change (get D 1 + 256 * get D 2 + 65536 * get D 3) with (g24 D 1).
  change (get D 4 + 256 * get D 5 + 65536 * get D 6) with (g24 D 4).
  change (get D 7 + 256 * get D 8 + 65536 * get D 9 + 16777216 * get D 10) with (g32 D 7).
  rewrite (u32_id (g32 D 7)) by (apply g32_range; exact HDb).
  bstep ltac:(apply (fget D F); try assumption; lia).
  assert (Hdl : 0 <= get D 11 < 256) by apply Hby.
  rewrite land_7, shiftr_div by lia. rewrite land_15. change (2 ^ 4) with 16. fold (ja_off D). fold (ja_rx2 D).
  assert (Ho : 0 <= ja_off D < 8) by (apply Z.mod_pos_bound; lia).
  assert (Hr2 : 0 <= ja_rx2 D < 16) by (apply Z.mod_pos_bound; lia).
  rewrite !is_valid_dr_spec by lia.
  set (s2 := on_stk (fun k => set_uw_rx1_offset (if ja_off D <? 6 then ja_off D else uw_rx1_offset k) k) s1).
  erewrite (bind_ok0 _ _ h4 s1 tt s2).
  2: { unfold s2. destruct (ja_off D <? 6); [reflexivity|].
       unfold ret, on_stk. destruct s1 as [? ? ? ? [] ?]. reflexivity. }
  set (s3 := on_stk (fun k => set_uw_rx2_dr (if ja_rx2 D <? 6 then ja_rx2 D else uw_rx2_dr k) k) s2).
  erewrite (bind_ok0 _ _ h4 s2 tt s3).
  2: { unfold s3. destruct (ja_rx2 D <? 6); [reflexivity|].
       unfold ret, on_stk. destruct s2 as [? ? ? ? [] ?]. reflexivity. }
  bstep ltac:(apply (fget D F); try assumption; try reflexivity; lia).
  rewrite land_15. fold (ja_delay D).
  assert (Hjd : 1 <= ja_delay D <= 15).
  { unfold ja_delay. pose proof (Z.mod_pos_bound (get D 12) 16 ltac:(lia)). destruct (Z.eqb_spec (get D 12 mod 16) 0); lia. }
  rewrite u32_id by lia. rewrite (Z.mul_comm (ja_delay D)). msteps.
  match goal with |- context [bind _ _ h4 ?x] => set (s4 := x) end.
  set (s5 := with_ch (ja_ch rg D (s_ch s)) s4).
  erewrite (bind_ok0 _ _ h4 s4 tt s5).
  2: { unfold s5, ja_ch. rewrite HDz. destruct (Z.eqb_spec (len d) 33) as [H33|H33].
       - bstep ltac:(apply (deref_hal_ok rg); exact Erg).
         bstep ltac:(apply (fread D F); try assumption; try reflexivity; lia).
         destruct (region_handle_cflist_ok rg (sub D 13 16) (s_ch s) h4 s4) as [Hcf _]; try reflexivity.
         + apply HI.
         + apply bytes_sub. exact HDb.
         + apply len_sub; lia.
         + exact Hcf.
       - reflexivity. }
  erewrite bind_ok; [|apply derive_ok].
  erewrite bind_ok; [|apply derive_ok].
  change (uw_app_key (s_stk s5)) with key. change (uw_dev_nonce (s_stk s5)) with (uw_dev_nonce (s_stk s)).
  bstep ltac:(apply set_session_ok; [apply HI|apply (ok_aes_len E HE)|apply (ok_aes_len E HE)]).
  unfold ret. cbn [addev]. rewrite !app_nil_r.
  replace (with_ses _ s5) with (ja_state E rg D (with_frame (over D (frame s)) s)).
  2: { rewrite Hov. reflexivity. }
  apply JA_ok; assumption.
Qed.

(** ** Data downlink *)
Definition d_mtype (d : list Z) : Z := get d 0 / 32.
Definition d_fopts_len (d : list Z) : Z := get d 5 mod 16.
Definition d_fopts (d : list Z) : list Z := sub d 8 (d_fopts_len d).
Definition d_rest (d : list Z) : Z := len d - 12 - d_fopts_len d.
Definition d_port (d : list Z) : Z := if 0 <? d_rest d then get d (8 + d_fopts_len d) else 0.
Definition d_msg (d : list Z) : list Z := firstn (length d - 4) d.
Definition d_mic (d : list Z) : list Z := skipn (length d - 4) d.

Definition new_cnt (cur f16 : Z) : option Z :=
  if cur =? 0 then Some f16 else
  let diff := (f16 - cur) mod 65536 in
  if diff =? 0 then None else
  if diff <=? 16384 then Some (u32 (cur + diff))
  else Some (u32 (cur - cur mod 65536 + 65536 + f16)).

Lemma land_hi cur : 0 <= cur < 4294967296 -> Z.land cur 4294901760 = cur - cur mod 65536.
Proof.
  intro H. assert (Z.land cur 4294901760 = Z.shiftl (Z.shiftr cur 16) 16).
  { apply Z.bits_inj'. intros i Hi. rewrite Z.land_spec, Z.shiftl_spec by lia.
    change 4294901760 with (Z.shiftl (Z.ones 16) 16). rewrite Z.shiftl_spec by lia.
    destruct (Z.ltb_spec i 16).
    - rewrite (Z.testbit_neg_r (Z.ones 16)), (Z.testbit_neg_r (Z.shiftr cur 16)) by lia. apply andb_false_r.
    - rewrite Z.shiftr_spec by lia. replace (i - 16 + 16) with i by lia.
      destruct (Z.ltb_spec i 32).
      + rewrite Z.ones_spec_low by lia. apply andb_true_r.
      + rewrite Z.ones_spec_high by lia. rewrite andb_false_r. symmetry.
        apply testbit_small with (n := 32); lia. }
  rewrite H0, Z.shiftl_mul_pow2, Z.shiftr_div_pow2 by lia. change (2 ^ 16) with 65536.
  pose proof (Z.div_mod cur 65536 ltac:(lia)). lia.
Qed.

Lemma update_f_cnt_ok f16 h s : ses_ok (s_ses s) -> 0 <= f16 < 65536 ->
  update_f_cnt_down f16 h s =
    match new_cnt (f_cnt_down (s_ses s)) f16 with
    | None => Ok (false, s, [])
    | Some c => Ok (true, on_ses (set_f_cnt_down c) s, [])
    end.
Proof.
  intros Hs H. unfold update_f_cnt_down, new_cnt. msteps.
  destruct (f_cnt_down (s_ses s) =? 0); [reflexivity|]. cbv zeta.
  assert (Hd : u16 (f16 - u16 (f_cnt_down (s_ses s))) = (f16 - f_cnt_down (s_ses s)) mod 65536)
    by (unfold u16; rewrite Zminus_mod_idemp_r; reflexivity).
  rewrite Hd. set (diff := (f16 - f_cnt_down (s_ses s)) mod 65536). destruct (diff =? 0); [reflexivity|].
  unfold MAX_FCNT_GAP. destruct (diff <=? 16384); [reflexivity|].
  rewrite land_hi by apply Hs. reflexivity.
Qed.
Lemma new_cnt_range cur f16 c : 0 <= f16 < 65536 -> new_cnt cur f16 = Some c -> 0 <= c < 4294967296.
Proof.
  unfold new_cnt. intros Hf. destruct (cur =? 0); [intro H; injection H as <-; lia|]. cbv zeta.
  destruct (_ =? 0); [discriminate|]. destruct (_ <=? 16384); intro H; injection H as <-; apply u32_range.
Qed.

(** the successive states *)
Definition d_ack (d : list Z) (s : st) : st :=
  if d_mtype d =? 5 then on_ses (set_ack_required true) s else s.
Definition d_cnt (d : list Z) (snr c : Z) (s : st) : st :=
  on_stk (set_current_snr snr) (on_ses (set_f_cnt_down c) (d_ack d s)).
Definition d_cmds (E : env) (h : list ev) (d : list Z) (snr c : Z) (s : st) : st * list ev :=
  p_commands E h (d_fopts d) (d_cnt d snr c s).
Definition d_mic_evs (d : list Z) (c : Z) (s : st) : list ev :=
  mic_evs (nwk_s_key (s_ses s)) (block_b0 DOWN (dev_addr (s_ses s)) c (len d - 4)) (d_msg d).
Definition d_hdr_ok (d : list Z) : Prop :=
  12 <= len d /\ get d 0 mod 4 = 0 /\ (d_mtype d = 3 \/ d_mtype d = 5).
Definition d_pld (d : list Z) : list Z := sub d (9 + d_fopts_len d) (d_rest d - 1).
Definition d_key (d : list Z) (s : st) : list Z :=
  if d_port d =? 0 then nwk_s_key (s_ses s) else app_s_key (s_ses s).
Definition d_plain (E : env) (d : list Z) (c : Z) (s : st) : list Z :=
  crypt (e_aes E) (d_key d s) DOWN (dev_addr (s_ses s)) c (d_pld d).
Definition d_dec_evs (d : list Z) (c : Z) (s : st) : list ev :=
  if d_rest d <=? 1 then [] else crypt_evs (d_key d s) DOWN (dev_addr (s_ses s)) c (length (d_pld d)).
Definition d_frame (E : env) (d : list Z) (c : Z) (s : st) : list Z :=
  if d_rest d <=? 1 then d
  else firstn (Z.to_nat (9 + d_fopts_len d)) d ++ d_plain E d c s ++ d_mic d.
Definition d_mic_ok (E : env) (d : list Z) (c : Z) (s : st) : Prop :=
  d_mic d = data_mic (e_cmac E) (nwk_s_key (s_ses s)) DOWN (dev_addr (s_ses s)) c (d_msg d).

Inductive data_cases (E : env) (d : list Z) (rssi snr : Z) (h : list ev) (s : st)
  : res ((err * pkt) * st * list ev) -> Prop :=
| DC_len : len d < 12 -> data_cases E d rssi snr h s (Ok ((ERR_MSG_LEN, Mk_pkt (Some 0) (len d) 0 rssi snr), s, []))
| DC_mhdr : 12 <= len d -> ~ d_hdr_ok d ->
    data_cases E d rssi snr h s (Ok ((ERR_MSG_MHDR, Mk_pkt (Some 0) (len d) 0 rssi snr), s, []))
| DC_addr : d_hdr_ok d -> g32 d 1 <> dev_addr (s_ses s) ->
    data_cases E d rssi snr h s (Ok ((ERR_DEV_ADDR, Mk_pkt (Some 0) (len d) 0 rssi snr), d_ack d s, []))
| DC_len2 : d_hdr_ok d -> g32 d 1 = dev_addr (s_ses s) -> len d < 12 + d_fopts_len d ->
    data_cases E d rssi snr h s (Ok ((ERR_MSG_LEN, Mk_pkt (Some 0) (len d) 0 rssi snr), d_ack d s, []))
| DC_fcnt : d_hdr_ok d -> g32 d 1 = dev_addr (s_ses s) -> 12 + d_fopts_len d <= len d ->
    new_cnt (f_cnt_down (s_ses s)) (g16 d 6) = None ->
    data_cases E d rssi snr h s (Ok ((ERR_FCNT, Mk_pkt (Some 0) (len d) 0 rssi snr), d_ack d s, []))
| DC_mic : forall c, d_hdr_ok d -> g32 d 1 = dev_addr (s_ses s) -> 12 + d_fopts_len d <= len d ->
    new_cnt (f_cnt_down (s_ses s)) (g16 d 6) = Some c -> ~ d_mic_ok E d c s ->
    data_cases E d rssi snr h s
      (Ok ((ERR_MSG_MIC, Mk_pkt (Some 0) (len d) (d_port d) rssi snr), fst (d_cmds E h d snr c s),
           snd (d_cmds E h d snr c s) ++ d_mic_evs d c s))
| DC_ok : forall c, d_hdr_ok d -> g32 d 1 = dev_addr (s_ses s) -> 12 + d_fopts_len d <= len d ->
    new_cnt (f_cnt_down (s_ses s)) (g16 d 6) = Some c -> d_mic_ok E d c s ->
    data_cases E d rssi snr h s
      (Ok ((ERR_NO, if 0 <? d_rest d then Mk_pkt (Some (9 + d_fopts_len d)) (d_rest d - 1) (d_port d) rssi snr
                    else Mk_pkt None 0 0 rssi snr),
           on_adr (set_ack_cnt 0) (with_frame (over (d_frame E d c s) (frame s)) (fst (d_cmds E h d snr c s))),
           snd (d_cmds E h d snr c s) ++ d_mic_evs d c s ++ d_dec_evs d c s)).

Lemma d_ack_Inv d s : Inv s -> Inv (d_ack d s).
Proof.
  intros [Hch Had Hm Hs Hk Hcs]. unfold d_ack. destruct (d_mtype d =? 5); [|constructor; assumption].
  constructor; cbn [on_ses s_ch s_adr s_mac s_ses s_stk s_cs]; try assumption.
  destruct Hs. constructor; cbn; assumption.
Qed.
Lemma d_cnt_Inv d snr c s : Inv s -> -128 <= snr < 128 -> 0 <= c < 4294967296 -> Inv (d_cnt d snr c s).
Proof.
  intros HI Hsnr Hc. apply (d_ack_Inv d) in HI. destruct HI as [Hch Had Hm Hs Hk Hcs].
  unfold d_cnt. constructor; cbn [on_ses on_stk s_ch s_adr s_mac s_ses s_stk s_cs]; try assumption.
  - destruct Hs. constructor; cbn; assumption.
  - destruct Hk. constructor; cbn; assumption.
Qed.
Lemma d_cnt_facts d snr c s :
  s_ch (d_cnt d snr c s) = s_ch s /\ s_adr (d_cnt d snr c s) = s_adr s /\ s_mac (d_cnt d snr c s) = s_mac s /\
  s_cs (d_cnt d snr c s) = s_cs s /\ s_stk (d_cnt d snr c s) = set_current_snr snr (s_stk s) /\
  s_ses (d_cnt d snr c s) = set_f_cnt_down c (if d_mtype d =? 5 then set_ack_required true (s_ses s) else s_ses s).
Proof. unfold d_cnt, d_ack. destruct (d_mtype d =? 5); cbn; auto 10. Qed.
Lemma d_ack_facts d s :
  s_ch (d_ack d s) = s_ch s /\ s_adr (d_ack d s) = s_adr s /\ s_mac (d_ack d s) = s_mac s /\
  s_cs (d_ack d s) = s_cs s /\ s_stk (d_ack d s) = s_stk s /\
  s_ses (d_ack d s) = (if d_mtype d =? 5 then set_ack_required true (s_ses s) else s_ses s).
Proof. unfold d_ack. destruct (d_mtype d =? 5); cbn; auto 10. Qed.

Lemma handle_data_ok E d rssi snr F h s : env_ok E -> e_strict_shl E = false -> Inv s ->
  uw_region (s_stk s) <> None -> bytes_ok d -> len d <= 255 -> frame s = over d F -> length F = 255%nat ->
  -128 <= snr < 128 ->
  data_cases E d rssi snr h s (handle_data_msg E (Mk_pkt (Some 0) (len d) 0 rssi snr) h s).
Proof.
  intros HE Hns HI Hreg Hd Hl Hf HF Hsnr.
  unfold handle_data_msg. cbn [pk_size pk_off pk_port pk_rssi pk_snr]. cbv zeta.
  destruct (Z.ltb_spec (len d) 12) as [H12|H12].
  { constructor. exact H12. }
  assert (Hby : forall i, 0 <= get d i < 256) by (intro; apply bytes_get; assumption).
  bstep ltac:(apply (fget d F); try assumption; lia).
  rewrite land_3, Z.shiftr_0_r, mhdr_shift by apply Hby. fold (d_mtype d).
  unfold MTYPE_UNCONF_DATA_DOWN, MTYPE_CONF_DATA_DOWN.
  destruct (Z.eqb_spec (get d 0 mod 4) 0) as [Hmaj|Hmaj]; cbn [negb].
  2: { apply DC_mhdr; [exact H12|]. intros (_ & A & _). contradiction. }
  destruct (negb (d_mtype d =? 3) && negb (d_mtype d =? 5)) eqn:Emt.
  { apply DC_mhdr; [exact H12|]. intros (_ & _ & A). lia. }
  assert (Hh : d_hdr_ok d) by (unfold d_hdr_ok; repeat split; try assumption; lia).
  erewrite (bind_ok0 _ _ h s tt (d_ack d s)).
  2: { unfold d_ack. destruct (d_mtype d =? 5); reflexivity. }
  destruct (d_ack_facts d s) as (A1 & A2 & A3 & A4 & A5 & A6).
  assert (Hfa : frame (d_ack d s) = over d F) by (unfold frame; rewrite A5; exact Hf).
  do 4 (bstep ltac:(apply (fget d F); try assumption; lia)).
  unfold shl24. rewrite Hns. cbn [andb]. msteps. rewrite le32 by apply Hby.
  change (get d 1 + 256 * get d 2 + 65536 * get d 3 + 16777216 * get d 4) with (g32 d 1).
  rewrite u32_id by (apply g32_range; exact Hd).
  assert (Hda : dev_addr (s_ses (d_ack d s)) = dev_addr (s_ses s)) by (rewrite A6; destruct (_ =? 5); reflexivity).
  rewrite Hda.
  destruct (Z.eqb_spec (dev_addr (s_ses s)) (g32 d 1)) as [Had|Had]; cbn [negb].
  2: { apply DC_addr; auto. }
  bstep ltac:(apply (fget d F); try assumption; lia).
  rewrite land_15. fold (d_fopts_len d).
  assert (Hfo : 0 <= d_fopts_len d < 16) by (apply Z.mod_pos_bound; lia).
  destruct (Z.ltb_spec (len d) (12 + d_fopts_len d)) as [Hl2|Hl2].
  { apply DC_len2; auto. }
  do 2 (bstep ltac:(apply (fget d F); try assumption; lia)).
  rewrite le16 by apply Hby. change (get d 6 + 256 * get d 7) with (g16 d 6).
  pose proof (g16_range d 6 Hd) as Hg16. rewrite u16_id by exact Hg16.
  pose proof (d_ack_Inv d s HI) as HIa.
  pose proof (update_f_cnt_ok (g16 d 6) h (d_ack d s) (iv_ses _ HIa) Hg16) as Hup.
  assert (Hfd : f_cnt_down (s_ses (d_ack d s)) = f_cnt_down (s_ses s)) by (rewrite A6; destruct (_ =? 5); reflexivity).
  rewrite Hfd in Hup.
  destruct (new_cnt (f_cnt_down (s_ses s)) (g16 d 6)) as [c|] eqn:Ec.
  2: { erewrite bind_ok0; [|exact Hup]. cbn [negb]. apply DC_fcnt; auto. }
  erewrite bind_ok0; [|exact Hup]. cbn [negb]. msteps. fold (d_cnt d snr c s).
  pose proof (new_cnt_range _ _ _ Hg16 Ec) as Hcr.
  pose proof (d_cnt_Inv d snr c s HI Hsnr Hcr) as HIc.
  destruct (d_cnt_facts d snr c s) as (B1 & B2 & B3 & B4 & B5 & B6).
  assert (Hfc : frame (d_cnt d snr c s) = over d F) by (unfold frame; rewrite B5; exact Hf).
  assert (Hregc : uw_region (s_stk (d_cnt d snr c s)) <> None) by (rewrite B5; exact Hreg).
  destruct (mac_handle_commands_ok E (d_fopts d) h (d_cnt d snr c s) HE Hns HIc Hregc (bytes_sub _ _ _ Hd))
    as (M1 & M2 & M3 & M4).
  fold (d_cmds E h d snr c s) in M1, M2, M3, M4.
  erewrite (bind_ok _ _ h (d_cnt d snr c s) tt (fst (d_cmds E h d snr c s)) (snd (d_cmds E h d snr c s))).
  2: { destruct (Z.ltb_spec 0 (d_fopts_len d)).
       - bstep ltac:(apply (fread d F); try assumption; lia). exact M1.
       - assert (Hz : d_fopts d = []) by (unfold d_fopts; replace (d_fopts_len d) with 0 by lia; reflexivity).
         unfold d_cmds. rewrite Hz. reflexivity. }
  set (s2 := fst (d_cmds E h d snr c s)) in *. set (es := snd (d_cmds E h d snr c s)) in *. set (h2 := h ++ es).
  assert (Hf2 : frame s2 = over d F) by (unfold frame; rewrite (mf_frame _ _ M3); exact Hfc).
  assert (Hnwk : nwk_s_key (s_ses s2) = nwk_s_key (s_ses s)) by (rewrite (mf_nwk _ _ M3), B6; destruct (_ =? 5); reflexivity).
  assert (Happ : app_s_key (s_ses s2) = app_s_key (s_ses s)) by (rewrite (mf_app _ _ M3), B6; destruct (_ =? 5); reflexivity).
  assert (Haddr : dev_addr (s_ses s2) = dev_addr (s_ses s)) by (rewrite (mf_addr _ _ M3), B6; destruct (_ =? 5); reflexivity).
  assert (Hcnt : f_cnt_down (s_ses s2) = c) by (rewrite (mf_down _ _ M3), B6; destruct (_ =? 5); reflexivity).
  rewrite (u8_id (8 + d_fopts_len d)) by lia.
  replace (u8 (len d - (12 + d_fopts_len d))) with (d_rest d) by (rewrite u8_id by lia; unfold d_rest; lia).
  assert (Hrest : 0 <= d_rest d <= 243) by (unfold d_rest; lia).
  rewrite (u8_id (8 + d_fopts_len d + 1)) by lia.
  replace (8 + d_fopts_len d + 1) with (9 + d_fopts_len d) by lia.
  erewrite (bind_ok0 _ _ h2 s2 (Mk_pkt (Some 0) (len d) (d_port d) rssi snr,
      (if 0 <? d_rest d then Some (9 + d_fopts_len d) else None), (if 0 <? d_rest d then d_rest d - 1 else 0)) s2).
  2: { unfold d_port. destruct (Z.ltb_spec 0 (d_rest d)).
       - bstep ltac:(apply (fget d F); try assumption; unfold d_rest in *; lia). reflexivity.
       - unfold ret. replace (d_rest d) with 0 by lia. reflexivity. }
  cbv beta iota. msteps. rewrite Hnwk.
  rewrite u8_id by lia.
  erewrite bind_ok.
  2: { apply (calc_mic_b0_ok E (len d - 4) (nwk_s_key (s_ses s)) 1 (d_msg d)).
       - rewrite Hf2. unfold len in *. rewrite over_len; lia.
       - rewrite Hf2, sub_over_in by lia. unfold sub, d_msg. cbn [Z.to_nat skipn]. f_equal. unfold len. lia. }
  change (f_cnt_of 1 (s_ses s2)) with (f_cnt_down (s_ses s2)). rewrite Hcnt, Haddr.
  change (block_b0 1) with (block_b0 DOWN). fold (d_mic_evs d c s).
  assert (Hdm : len (d_msg d) = len d - 4) by (unfold d_msg, len in *; rewrite firstn_length; lia).
  replace (firstn 4 (e_cmac E (nwk_s_key (s_ses s)) (block_b0 DOWN (dev_addr (s_ses s)) c (len d - 4) ++ d_msg d)))
    with (data_mic (e_cmac E) (nwk_s_key (s_ses s)) DOWN (dev_addr (s_ses s)) c (d_msg d))
    by (unfold data_mic; rewrite Hdm; reflexivity).
  bstep ltac:(apply (fread d F); try assumption; lia).
  assert (Hjm : sub d (len d - 4) 4 = d_mic d).
  { unfold sub, d_mic. rewrite firstn_all2; [f_equal; unfold len; lia|]. rewrite skipn_length. unfold len in *. lia. }
  rewrite Hjm. rewrite addev_addev.
  destruct (memeq (d_mic d) _) eqn:Em; cbn [negb].
  2: { unfold ret. cbn [addev]. rewrite app_nil_r. apply DC_mic; auto.
       unfold d_mic_ok. intro Hc. apply (proj2 (memeq_spec _ _)) in Hc. rewrite Hc in Em. discriminate Em. }
  apply memeq_spec in Em.
  match goal with |- context [bind _ _ ?hh s2] => set (h3 := hh) end.
  assert (Hov : over (d_frame E d c s) (frame s) = over (d_frame E d c s) F).
  { assert (Hfl : length (d_frame E d c s) = length d).
    { unfold d_frame. destruct (Z.leb_spec (d_rest d) 1); [reflexivity|].
      unfold d_plain. rewrite !app_length, crypt_length by apply (ok_aes_len E HE).
      unfold d_mic, d_pld, sub. rewrite !firstn_length, !skipn_length. unfold d_rest, len in *. lia. }
    unfold over. f_equal. rewrite Hf. unfold over. rewrite Hfl, skipn_app, skipn_all, Nat.sub_diag. reflexivity. }
  erewrite (bind_ok _ _ h3 s2 tt (with_frame (over (d_frame E d c s) (frame s)) s2) (d_dec_evs d c s)).
  2: { rewrite Hov. unfold d_dec_evs, d_frame. destruct (Z.leb_spec (d_rest d) 1) as [Hr1|Hr1].
       - replace (0 <? (if 0 <? d_rest d then d_rest d - 1 else 0)) with false by (destruct (0 <? d_rest d) eqn:?; lia).
         rewrite <- Hf2, with_frame_self. reflexivity.
       - replace (0 <? d_rest d) with true by lia. replace (0 <? d_rest d - 1) with true by lia.
         msteps. rewrite Happ.
         assert (Hk : (if d_port d =? 0 then nwk_s_key (s_ses s) else app_s_key (s_ses s)) = d_key d s) by reflexivity.
         cbn [pk_port]. rewrite ?Hnwk, ?Happ, ?Hk.
         set (pre := firstn (Z.to_nat (9 + d_fopts_len d)) d).
         assert (Hlp : length pre = Z.to_nat (9 + d_fopts_len d))
           by (unfold pre; rewrite firstn_length; clear - Hr1 Hfo; unfold d_rest, len in *; lia).
         assert (Hlpl : len (d_pld d) = d_rest d - 1) by (apply len_sub; clear - Hr1 Hfo; unfold d_rest in *; lia).
         assert (Hsplit : d = pre ++ d_pld d ++ d_mic d).
         { rewrite <- (firstn_skipn (Z.to_nat (9 + d_fopts_len d)) d) at 1. fold pre. f_equal.
           rewrite <- (firstn_skipn (Z.to_nat (d_rest d - 1)) (skipn (Z.to_nat (9 + d_fopts_len d)) d)) at 1.
           unfold d_pld, sub. f_equal. rewrite skipn_skipn'. unfold d_mic. f_equal. unfold d_rest, len in *. lia. }
         replace (9 + d_fopts_len d) with (len pre) by (unfold len; lia). rewrite <- Hlpl.
         rewrite (encrypt_payload_ok E (d_key d s) 1 pre (d_pld d) (d_mic d ++ skipn (length d) F)).
         2: exact HE.
         2: { rewrite Hf2. unfold over. rewrite Hsplit at 1. rewrite <- !app_assoc. reflexivity. }
         2: { rewrite Hf2. unfold len in *. rewrite over_len; lia. }
         change (f_cnt_of 1 (s_ses s2)) with (f_cnt_down (s_ses s2)). rewrite Hcnt, Haddr.
         fold (d_plain E d c s). unfold over.
         assert (Hfl : length (pre ++ d_plain E d c s ++ d_mic d) = length d).
         { transitivity (length (pre ++ d_pld d ++ d_mic d)); [|rewrite <- Hsplit; reflexivity].
           rewrite !app_length. unfold d_plain. rewrite crypt_length by apply (ok_aes_len E HE). reflexivity. }
         rewrite Hfl, <- !app_assoc. reflexivity. }
  unfold adr_handle_downlink. msteps. unfold ret. cbn [addev]. rewrite app_nil_r, <- app_assoc.
  replace (Mk_pkt (if 0 <? d_rest d then Some (9 + d_fopts_len d) else None) (if 0 <? d_rest d then d_rest d - 1 else 0) (pk_port (Mk_pkt (Some 0) (len d) (d_port d) rssi snr)) (pk_rssi (Mk_pkt (Some 0) (len d) (d_port d) rssi snr)) (pk_snr (Mk_pkt (Some 0) (len d) (d_port d) rssi snr)))
    with (if 0 <? d_rest d then Mk_pkt (Some (9 + d_fopts_len d)) (d_rest d - 1) (d_port d) rssi snr else Mk_pkt None 0 0 rssi snr).
  2: { cbn [pk_port pk_rssi pk_snr]. destruct (0 <? d_rest d) eqn:Er; [reflexivity|]. unfold d_port. rewrite Er. reflexivity. }
  apply DC_ok; auto.
Qed.
