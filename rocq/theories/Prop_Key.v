(** Prop_Key.v -- C76: the calls to the crypto functions *)
From Verif Require Import SpecKey LLocal LPhase LDown LDown2 LDown3 LUp3 Demo Prop_Join Prop_Down Prop_Safe.

(** ** The calls made by parts of a call *)
Record job (es : list ev) (a c : list (list Z * list Z)) : Prop := Mk_job {
  jb_aes : aes_from None es = a; jb_aes0 : aes_after None es = None; jb_cmac : cmac_from None es = c; jb_cmac0 : cmac_after None es = None }.
Lemma aes_after_app a : forall o b, aes_after o (a ++ b) = aes_after (aes_after o a) b.
Proof. induction a as [|e a IH]; intros o b; [reflexivity|]. destruct e; cbn; apply IH. Qed.
Lemma cmac_after_app a : forall o b, cmac_after o (a ++ b) = cmac_after (cmac_after o a) b.
Proof. induction a as [|e a IH]; intros o b; [reflexivity|]. destruct e; cbn; apply IH. Qed.
Lemma job_app x y a c a' c' : job x a c -> job y a' c' -> job (x ++ y) (a ++ a') (c ++ c').
Proof.
  intros [A A0 C C0] [A' A0' C' C0']. constructor.
  - rewrite aes_from_app, A, A0, A'. reflexivity.
  - rewrite aes_after_app, A0. exact A0'.
  - rewrite cmac_from_app, C, C0, C'. reflexivity.
  - rewrite cmac_after_app, C0. exact C0'.
Qed.
Lemma job_none es : Forall (fun e => is_crypto e = false) es -> job es [] [].
Proof.
  induction es as [|e es IH]; intro F; [constructor; reflexivity|]. apply Forall_cons_iff in F as [He F]. destruct (IH F) as [A A0 C C0].
  constructor; destruct e; try discriminate He; cbn; assumption.
Qed.
Lemma job_mic k p m : job (mic_evs k p m) [] [(k, p ++ m)].
Proof. unfold mic_evs. destruct p; constructor; reflexivity. Qed.
Lemma enc_aes k dir addr cnt n : forall i c, let es := enc_evs dir addr cnt (Z.of_nat i) n in
  aes_from (Some k) es = map (fun i => (k, block_a dir addr cnt (Z.of_nat i))) (seq i n) /\ aes_after (Some k) es = Some k /\ cmac_from c es = [] /\ cmac_after c es = c.
Proof.
  induction n as [|n IH]; intros i c; [repeat split|]. cbn [enc_evs aes_from aes_after cmac_from cmac_after seq map].
  replace (Z.of_nat i + 1) with (Z.of_nat (S i)) by lia. destruct (IH (S i) c) as (A & B & C & D). cbv zeta in *. rewrite A. auto.
Qed.
Lemma job_crypt k dir addr cnt n : job (crypt_evs k dir addr cnt n) (payload_blocks k dir addr cnt n) [].
Proof.
  unfold crypt_evs. destruct (enc_aes k dir addr cnt (nblocks n) 1 None) as (A & B & C & D). cbv zeta in *. change (Z.of_nat 1) with 1 in *.
  constructor; cbn [aes_from aes_after cmac_from cmac_after].
  - rewrite aes_from_app, A, B. apply app_nil_r.
  - rewrite aes_after_app, B. reflexivity.
  - rewrite cmac_from_app, C, D. reflexivity.
  - rewrite cmac_after_app, D. reflexivity.
Qed.
Lemma job_key k kind an ni nonce : job (key_evs k kind an ni nonce) [(k, [kind] ++ le 3 an ++ le 3 ni ++ le 2 nonce ++ repeat 0 7)] [].
Proof. constructor; reflexivity. Qed.
Lemma job_ja E k d : len d = 17 \/ len d = 33 -> job (ja_evs E k d) (map (pair k) (ja_cipher_blocks d)) [(k, ja_msg (ja_dec E k d))].
Proof.
  intro L. unfold ja_evs.
  change (CAesNew k :: CAesEnc (sub d 1 16) :: (if len d =? 33 then [CAesEnc (sub d 17 16)] else []) ++ CAesDel :: mic_evs k [] (ja_msg (ja_dec E k d)))
    with ((CAesNew k :: CAesEnc (sub d 1 16) :: (if len d =? 33 then [CAesEnc (sub d 17 16)] else [])) ++ [CAesDel] ++ mic_evs k [] (ja_msg (ja_dec E k d))).
  rewrite app_assoc. rewrite <- (app_nil_r (map _ _)). change [(k, ja_msg (ja_dec E k d))] with ([] ++ [(k, [] ++ ja_msg (ja_dec E k d))]).
  apply job_app; [|apply job_mic].
  assert (Q : (len d =? 33) = (length d =? 33)%nat).
  { unfold len. destruct (Nat.eqb_spec (length d) 33) as [->|N]; [reflexivity|]. apply Z.eqb_neq. lia. }
  unfold ja_cipher_blocks. rewrite Q. destruct (length d =? 33)%nat; constructor; reflexivity.
Qed.
Lemma rand_nocrypto E h s : Forall (fun e => is_crypto e = false) (rand_evs E h s).
Proof. unfold rand_evs. destruct (_ =? 0); repeat constructor. Qed.
Lemma job_calls es a c : job es a c -> aes_calls es = a /\ cmac_calls es = c.
Proof. intros []. split; assumption. Qed.

(** ** C76 *)
(** The outcome of a call - its result, what it does and the state it leaves - depends on
    the crypto functions only through their answers to the calls it makes. *)
Theorem C76_answers E aes cmac w o v es w' : step E w o = Some (v, es, w') ->
  same_on aes (e_aes E) (aes_calls es) -> same_on cmac (e_cmac E) (cmac_calls es) -> step (with_crypto aes cmac E) w o = Some (v, es, w').
Proof. apply step_local. Qed.
Print Assumptions C76_answers.

Lemma job_to es a c a' c' : job es a c -> a = a' -> c = c' -> job es a' c'.
Proof. intros J -> ->. exact J. Qed.
Lemma send_job E h p d c s : let r := s_ses s in let b := send_body E p d c s in
  job (send_events E h p d c s) (payload_blocks (app_s_key r) UP (dev_addr r) (f_cnt_up r) (length d)) [(nwk_s_key r, mic_input UP (dev_addr r) (f_cnt_up r) b)].
Proof.
  intros r b. unfold send_events. cbv zeta. fold r b. eapply job_to.
  - apply job_app; [apply job_none, rand_nocrypto|]. apply job_app; [apply job_none; repeat constructor|].
    apply job_app; [|apply job_app; [apply job_mic|apply job_none; repeat constructor]].
    instantiate (2 := payload_blocks (app_s_key r) UP (dev_addr r) (f_cnt_up r) (length d)). instantiate (1 := []).
    destruct d as [|x d]; [cbn; apply job_none; constructor|]. replace (len (x :: d) =? 0) with false by (symmetry; apply Z.eqb_neq; unfold len; cbn [length]; lia). apply job_crypt.
  - cbn [app]. apply app_nil_r.
  - reflexivity.
Qed.
Lemma fctrl_low adr req ack l : (length l < 16)%nat -> Z.to_nat (up_fctrl adr req ack l mod 16) = length l.
Proof.
  intro L. unfold up_fctrl, len. replace (128 * b2z adr + 64 * b2z req + 32 * b2z ack + Z.of_nat (length l)) with (Z.of_nat (length l) + (8 * b2z adr + 4 * b2z req + 2 * b2z ack) * 16) by lia.
  rewrite Z.mod_add, Z.mod_small by lia. apply Nat2Z.id.
Qed.
Lemma uplink_parts E p d c s : env_ok E -> Inv s -> let f := send_frame_bytes E p d c s in
  firstn (length f - 4) f = send_body E p d c s /\ frm_len f = length d.
Proof.
  intros HE HI f.
  assert (Q : f = send_body E p d c s ++ data_mic (e_cmac E) (nwk_s_key (s_ses s)) UP (dev_addr (s_ses s)) (f_cnt_up (s_ses s)) (send_body E p d c s)) by reflexivity.
  set (b := send_body E p d c s) in *. assert (Lm : length (data_mic (e_cmac E) (nwk_s_key (s_ses s)) UP (dev_addr (s_ses s)) (f_cnt_up (s_ses s)) b) = 4%nat).
  { unfold data_mic. rewrite firstn_length, (ok_cmac_len E HE). reflexivity. }
  assert (Lf : length f = (length b + 4)%nat) by (rewrite Q, app_length, Lm; reflexivity). split.
  - rewrite Lf, Q. replace (length b + 4 - 4)%nat with (length b) by lia. rewrite firstn_app, Nat.sub_diag, firstn_O, app_nil_r. apply firstn_all.
  - unfold frm_len. rewrite Lf. unfold b, send_body. rewrite data_body_length. destruct (queue_length _ (iv_mac _ HI)) as [K1 K2].
    assert (A : fr_fopts_len f = length (queue (s_mac s))) by (apply fctrl_low; lia).
    rewrite A. pose proof (crypt_length (e_aes E) (app_s_key (s_ses s)) UP (dev_addr (s_ses s)) (f_cnt_up (s_ses s)) d (ok_aes_len E HE)) as Lc.
    destruct (crypt _ _ _ _ _ d) as [|x l] eqn:Ec; cbn [length] in *; lia.
Qed.

(** Uplinks: the payload is encrypted with the AppSKey and the blocks A_1 .. A_k of this
    counter, the frame authenticated with the NwkSKey; nothing else is asked. *)
Theorem C76_uplink E w o v es w' f : env_ok E -> reachable E w -> op_wf o -> o <> OJoin -> step E w o = Some (v, es, w') -> tx_frames es = [f] ->
  let r := ses w in let b := firstn (length f - 4) f in
  aes_calls es = payload_blocks (app_s_key r) UP (dev_addr r) (f_cnt_up r) (frm_len f) /\
  cmac_calls es = [(nwk_s_key r, mic_input UP (dev_addr r) (f_cnt_up r) b)].
Proof.
  intros HE Hr Hw Nj H Tf. pose proof (reach_Inv E w HE Hr) as HI.
  destruct (step_tx E w o v es w' HE HI Hw H) as [p d c h1 s1 S|A B C D F G|A B]; [|contradiction|congruence].
  destruct (sent_obs _ _ _ _ _ _ _ _ _ _ _ _ S) as (T & _). rewrite T in Tf. injection Tf as <-. destruct S as [_ _ Hpre (cc & ->) _ _ _ _ _ _ _ HI1 _].
  destruct (uplink_parts E p d c _ HE HI1) as [-> ->]. cbv zeta.
  pose proof (send_job E h1 p d c (on_cs (fun _ => cc) (w_st w))) as J. cbv zeta in J. change (s_ses (on_cs (fun _ => cc) (w_st w))) with (ses w) in J.
  apply job_calls. destruct Hpre as [(_ & ->)|(t & _ & ->)]; [exact J|]. eapply job_to; [apply (job_app [KUnixtime t]); [apply job_none; repeat constructor|exact J]|reflexivity|reflexivity].
Qed.
Print Assumptions C76_uplink.
(** The join-request is authenticated with the AppKey. *)
Theorem C76_join_request E w v es w' f : env_ok E -> reachable E w -> step E w OJoin = Some (v, es, w') -> tx_frames es = [f] ->
  aes_calls es = [] /\ cmac_calls es = [(app_key w, firstn (length f - 4) f)].
Proof.
  intros HE Hr H Tf. pose proof (reach_Inv E w HE Hr) as HI.
  destruct (step_tx E w OJoin v es w' HE HI I H) as [p d c h1 s1 S|A B C D F G|A B]; [destruct S as [S0 _ _ _ _ _ _ _ _ _ _ _ _]; discriminate S0| |congruence].
  subst es. destruct (join_obs E (w_hist w) (w_st w)) as (T & _). cbv zeta in T. rewrite T in Tf. injection Tf as <-.
  assert (Q : firstn (length (join_bytes E (join_nonce E (w_hist w) (w_st w)) (w_st w)) - 4) (join_bytes E (join_nonce E (w_hist w) (w_st w)) (w_st w)) = join_body (join_nonce E (w_hist w) (w_st w)) (w_st w)).
  { unfold join_bytes, join_request. cbv zeta. fold (join_body (join_nonce E (w_hist w) (w_st w)) (w_st w)). rewrite app_length, firstn_length, (ok_cmac_len E HE).
    match goal with |- firstn (length ?b + _ - 4) _ = _ => replace (length b + Nat.min 4 16 - 4)%nat with (length b) by (cbn [Nat.min]; lia) end.
    rewrite firstn_app, Nat.sub_diag, firstn_O, app_nil_r. apply firstn_all. }
  rewrite Q. apply job_calls. unfold join_events. cbv zeta. eapply job_to.
  - apply job_app; [apply job_app; [apply job_none, rand_nocrypto|apply job_none; repeat constructor]|]. apply job_app; [apply job_none; repeat constructor|].
    apply job_app; [apply job_mic|apply job_none; repeat constructor].
  - reflexivity.
  - reflexivity.
Qed.
Print Assumptions C76_join_request.

Lemma pre_nocrypto w : Forall (fun e => is_crypto e = false) (rx_pre w).
Proof. unfold rx_pre. destruct (uw_state (stk w)); repeat constructor. Qed.
Lemma rx_job w rx es cb a c : is_crypto cb = false -> job es a c -> job (rx_pre w ++ RRead rx :: RSleep :: es ++ [cb]) a c.
Proof.
  intros N J. eapply job_to.
  - apply job_app; [apply job_none, pre_nocrypto|]. apply (job_app [RRead rx; RSleep]); [apply job_none; repeat constructor|]. apply job_app; [exact J|apply job_none; constructor; [exact N|constructor]].
  - apply app_nil_r.
  - apply app_nil_r.
Qed.
Lemma mic_checked_d w d : bytes_ok d -> 0 <= f_cnt_down (ses w) < 4294967296 ->
  (mic_checked w d <-> d_hdr_ok d /\ g32 d 1 = dev_addr (ses w) /\ 12 + d_fopts_len d <= len d /\ new_cnt (f_cnt_down (ses w)) (g16 d 6) <> None).
Proof.
  intros Hb Hc. unfold mic_checked.
  assert (L : (12 <= length d)%nat <-> 12 <= len d) by (unfold len; lia). rewrite L. rewrite (fr_sized_d d Hb).
  assert (Hg : 0 <= g16 d 6 < 65536) by (apply g16_range; exact Hb). pose proof (new_cnt_none (f_cnt_down (ses w)) (g16 d 6) Hg) as N.
  split.
  - intros (L1 & A & B & C & D). rewrite fr_down_d in A by exact L1. rewrite fr_addr_d in B by exact L1. rewrite fr_cnt16_d in D by exact L1. tauto.
  - intros (A & B & C & D). assert (L1 : 12 <= len d) by apply A. rewrite fr_down_d, fr_addr_d, fr_cnt16_d by exact L1. tauto.
Qed.
Lemma dec_job E w d c : bytes_ok d -> 12 + d_fopts_len d <= len d -> job (d_dec_evs d c (rx_s1 E w)) (payload_blocks (payload_key w d) DOWN (dev_addr (ses w)) c (frm_len d)) [].
Proof.
  intros Hb Hs. pose proof (fr_fopts_len_d d Hb) as Q. unfold d_dec_evs, frm_len. destruct (Z.leb_spec (d_rest d) 1) as [L|L].
  - replace (length d - 13 - fr_fopts_len d)%nat with 0%nat by (unfold d_rest, len in *; lia). apply job_none. constructor.
  - assert (K : d_key d (rx_s1 E w) = payload_key w d).
    { unfold d_key, payload_key, d_port. replace (0 <? d_rest d) with true by lia. rewrite at_get. rewrite Nat2Z.inj_add, Q. reflexivity. }
    rewrite K. change (dev_addr (s_ses (rx_s1 E w))) with (dev_addr (ses w)).
    replace (length (d_pld d)) with (length d - 13 - fr_fopts_len d)%nat; [apply job_crypt|].
    unfold d_pld. rewrite sub_len by (unfold d_rest, d_fopts_len, len in *; pose proof (Z.mod_pos_bound (get d 5) 16); lia). unfold d_rest, len in *. lia.
Qed.

(** Received data frames: the MIC of a frame for the session is checked with the NwkSKey;
    an authentic frame's payload is decrypted with the key of its port. *)
Theorem C76_downlink E w m v es w' : env_ok E -> reachable E w -> receives w m -> joining w = false -> step E w (OIrq m) = Some (v, es, w') ->
  let d := rx_data (received E w) in let r := ses w in let c := f_cnt_down (ses w') in
  (~ mic_checked w d -> aes_calls es = [] /\ cmac_calls es = []) /\
  (mic_checked w d -> cmac_calls es = [(nwk_s_key r, mic_input DOWN (dev_addr r) c (fr_body d))] /\
    (authentic E w d c -> aes_calls es = payload_blocks (payload_key w d) DOWN (dev_addr r) c (frm_len d)) /\
    (~ authentic E w d c -> aes_calls es = [])).
Proof.
  intros HE Hr Rx Hj H d r c. pose proof (reach_Inv E w HE Hr) as HI.
  assert (Hb : bytes_ok d) by apply (ok_pkt_byte E HE). assert (Hcur : 0 <= f_cnt_down (ses w) < 4294967296) by apply (iv_ses _ HI).
  destruct (rx_s1_Inv E w HE HI (proj1 Rx)) as [HI1 Hreg].
  destruct (rx_data_step E w m v es w' HE HI H Rx Hj) as (e & p & s2 & es1 & Hw & -> & Dc). fold d in Dc. pose proof (mic_checked_d w d Hb Hcur) as MC.
  assert (None_ : ~ mic_checked w d -> es1 = [] -> forall cb, is_crypto cb = false -> let es := rx_pre w ++ RRead (received E w) :: RSleep :: es1 ++ [cb] in aes_calls es = [] /\ cmac_calls es = []).
  { intros _ -> cb N. apply job_calls. apply (rx_job w (received E w) [] cb [] [] N). apply job_none. constructor. }
  assert (Cmds : forall c0, new_cnt (f_cnt_down (ses w)) (g16 d 6) = Some c0 ->
     Forall (fun e => is_crypto e = false) (snd (d_cmds (relax E) (cmd_hist E w) d (rx_snr (received E w)) c0 (rx_s1 E w)))
     /\ macfr (d_cnt d (rx_snr (received E w)) c0 (rx_s1 E w)) (fst (d_cmds (relax E) (cmd_hist E w) d (rx_snr (received E w)) c0 (rx_s1 E w)))).
  { intros c0 Hc. destruct (d_cmds_facts (relax E) (cmd_hist E w) d (rx_snr (received E w)) c0 (rx_s1 E w) (relax_ok E HE) eq_refl HI1 Hreg Hb) as (_ & F1 & F2).
    - apply (ok_pkt_snr E HE).
    - eapply new_cnt_range; [|exact Hc]. apply g16_range. exact Hb.
    - split; [apply mac_nocrypto; exact F2|exact F1]. }
  assert (Auth : forall c0, d_hdr_ok d -> g32 d 1 = dev_addr (ses w) -> 12 + d_fopts_len d <= len d -> new_cnt (f_cnt_down (ses w)) (g16 d 6) = Some c0 ->
     (authentic E w d c0 <-> d_mic_ok (relax E) d c0 (rx_s1 E w))).
  { intros c0 A B C D. unfold authentic. assert (L : 12 <= len d) by apply A. rewrite fr_down_d, fr_addr_d, fr_cnt16_d by exact L. rewrite (fr_sized_d d Hb).
    assert (g16 d 6 = c0 mod 65536) by (symmetry; eapply new_cnt_mod; [exact Hcur|apply g16_range; exact Hb|exact D]).
    unfold d_mic_ok. change (d_mic d) with (fr_mic d). change (d_msg d) with (fr_body d). assert ((12 <= length d)%nat) by (unfold len in L; lia). tauto. }
  inv_ok Dc.
  1-5: (split; [intro N; apply None_; [exact N|reflexivity|reflexivity]|intro N; exfalso; apply MC in N; destruct N as (N1 & N2 & N3 & N4); try (destruct N1; lia); try contradiction; try lia; congruence]).
  - match goal with Q : new_cnt _ _ = Some ?x |- _ => rename x into c0; rename Q into Hc end. assert (Hc' : new_cnt (f_cnt_down (ses w)) (g16 d 6) = Some c0) by exact Hc. destruct (Cmds c0 Hc) as [C1 C2].
    assert (Ec : c = c0). { unfold c, ses. rewrite Hw. change (s_ses (end_dl ?x)) with (s_ses x). destruct C2. rewrite mf_down. reflexivity. } rewrite Ec.
    split; [intro N; exfalso; apply N; apply MC; split; [assumption|]; split; [assumption|]; split; [assumption|]; rewrite Hc'; discriminate|]. intros _.
    assert (J : job (snd (d_cmds (relax E) (cmd_hist E w) d (rx_snr (received E w)) c0 (rx_s1 E w)) ++ d_mic_evs d c0 (rx_s1 E w)) [] [(nwk_s_key r, mic_input DOWN (dev_addr r) c0 (fr_body d))]).
    { eapply job_to; [apply job_app; [apply job_none; exact C1|apply job_mic]|reflexivity|]. cbn [app]. unfold mic_input. replace (len (fr_body d)) with (len d - 4); [reflexivity|].
      unfold fr_body, len. rewrite firstn_length. unfold d_hdr_ok, len in *. lia. }
    match goal with |- context [CbDown ?a ?b ?x] => apply (rx_job w (received E w) _ (CbDown a b x) _ _ eq_refl) in J end.
    apply job_calls in J as [J1 J2]. split; [exact J2|]. split; [|intros _; exact J1]. intro A. apply Auth in A; try assumption. contradiction.
  - match goal with Q : new_cnt _ _ = Some ?x |- _ => rename x into c0; rename Q into Hc end. assert (Hc' : new_cnt (f_cnt_down (ses w)) (g16 d 6) = Some c0) by exact Hc. destruct (Cmds c0 Hc) as [C1 C2].
    assert (Ec : c = c0). { unfold c, ses. rewrite Hw. change (s_ses (end_dl (on_adr ?f (with_frame ?g ?x)))) with (s_ses x). destruct C2. rewrite mf_down. reflexivity. } rewrite Ec.
    split; [intro N; exfalso; apply N; apply MC; split; [assumption|]; split; [assumption|]; split; [assumption|]; rewrite Hc'; discriminate|]. intros _.
    assert (J : job (snd (d_cmds (relax E) (cmd_hist E w) d (rx_snr (received E w)) c0 (rx_s1 E w)) ++ d_mic_evs d c0 (rx_s1 E w) ++ d_dec_evs d c0 (rx_s1 E w))
       (payload_blocks (payload_key w d) DOWN (dev_addr r) c0 (frm_len d)) [(nwk_s_key r, mic_input DOWN (dev_addr r) c0 (fr_body d))]).
    { eapply job_to; [apply job_app; [apply job_none; exact C1|apply job_app; [apply job_mic|apply dec_job; assumption]]|reflexivity|]. cbn [app]. unfold mic_input. replace (len (fr_body d)) with (len d - 4); [reflexivity|].
      unfold fr_body, len. rewrite firstn_length. unfold d_hdr_ok, len in *. lia. }
    match goal with |- context [CbDown ?a ?b ?x] => apply (rx_job w (received E w) _ (CbDown a b x) _ _ eq_refl) in J end.
    apply job_calls in J as [J1 J2]. split; [exact J2|]. split; [intros _; exact J1|]. intro A. exfalso. apply A. apply Auth; assumption.
Qed.
Print Assumptions C76_downlink.

Lemma le3_of a b c : is_byte a -> is_byte b -> is_byte c -> le 3 (a + 256 * b + 65536 * c) = [a; b; c].
Proof. unfold is_byte. intros. cbn [le]. f_equal; [|f_equal; [|f_equal]]; Z.to_euclidean_division_equations; lia. Qed.
Lemma key_block_d kind D nonce : bytes_ok D -> (7 <= length D)%nat -> [kind] ++ le 3 (g24 D 1) ++ le 3 (g24 D 4) ++ le 2 nonce ++ repeat 0 7 = key_block kind D nonce.
Proof.
  intros Hb L. unfold key_block. do 7 (destruct D as [|? D]; [cbn in L; lia|]).
  unfold bytes_ok in Hb. repeat match goal with F : Forall is_byte (_ :: _) |- _ => apply Forall_cons_iff in F as [? F] end.
  change (g24 (z :: z0 :: z1 :: z2 :: z3 :: z4 :: z5 :: D) 1) with (z0 + 256 * z1 + 65536 * z2).
  change (g24 (z :: z0 :: z1 :: z2 :: z3 :: z4 :: z5 :: D) 4) with (z3 + 256 * z4 + 65536 * z5). rewrite !le3_of by assumption. reflexivity.
Qed.
(** A frame that looks like a join-accept is decrypted and checked with the AppKey; a valid
    one gives the two session keys of 6.2.5. *)
Theorem C76_join_accept E w m v es w' : env_ok E -> reachable E w -> receives w m -> joining w = true -> step E w (OIrq m) = Some (v, es, w') ->
  let d := rx_data (received E w) in let k := app_key w in let D := ja_clear E k d in let n := uw_dev_nonce (stk w) in
  (~ ja_shaped d -> aes_calls es = [] /\ cmac_calls es = []) /\
  (ja_shaped d -> cmac_calls es = [(k, firstn (length d - 4) D)] /\
    (ja_valid E k d -> aes_calls es = map (pair k) (ja_cipher_blocks d ++ [key_block 1 D n; key_block 2 D n])) /\
    (~ ja_valid E k d -> aes_calls es = map (pair k) (ja_cipher_blocks d))).
Proof.
  intros HE Hr Rx Hj H d k D n. pose proof (reach_Inv E w HE Hr) as HI.
  assert (Hb : bytes_ok d) by apply (ok_pkt_byte E HE).
  destruct (rx_join_step E w m v es w' HE HI H Rx Hj) as (e & t & vw & s2 & es1 & Hw & -> & Jc). fold d in Jc.
  assert (Sh : ja_shaped d <-> (len d = 17 \/ len d = 33) /\ get d 0 = 32).
  { unfold ja_shaped. rewrite at_get. change (Z.of_nat 0) with 0. unfold len. intuition lia. }
  assert (HJ : forall a c, job es1 a c -> aes_calls (rx_pre w ++ RRead (received E w) :: RSleep :: es1 ++ [CbDown e t vw]) = a /\ cmac_calls (rx_pre w ++ RRead (received E w) :: RSleep :: es1 ++ [CbDown e t vw]) = c).
  { intros a c J. apply job_calls. apply rx_job; [reflexivity|exact J]. }
  inv_ok Jc.
  - split; [intros _; apply HJ, job_none; constructor|]. intro S. apply Sh in S. lia.
  - split; [intros _; apply HJ, job_none; constructor|]. intro S. apply Sh in S. tauto.
  - match goal with Q : len d = 17 \/ len d = 33 |- _ => rename Q into Ld end. split; [intro N; exfalso; apply N, Sh; auto|]. intros _.
    assert (ED : D = ja_dec E k d) by (apply ja_clear_dec; exact Ld).
    change (uw_app_key (s_stk (rx_s1 E w))) with k in *.
    destruct (HJ _ _ (job_ja (relax E) k d Ld)) as [A C]. split; [|split].
    + rewrite C. unfold ja_msg. change (ja_dec (relax E) k d) with (ja_dec E k d). rewrite (ja_dec_length E k d HE Ld), <- ED. reflexivity.
    + intro V. exfalso. apply (ja_valid_dec E k d Ld) in V. tauto.
    + intros _. exact A.
  - match goal with Q : len d = 17 \/ len d = 33 |- _ => rename Q into Ld end. split; [intro N; exfalso; apply N, Sh; auto|]. intros _.
    assert (ED : D = ja_dec E k d) by (apply ja_clear_dec; exact Ld).
    change (uw_app_key (s_stk (rx_s1 E w))) with k in *. change (uw_dev_nonce (s_stk (rx_s1 E w))) with n in *.
    pose proof (job_app _ _ _ _ _ _ (job_ja (relax E) k d Ld) (job_app _ _ _ _ _ _ (job_key k 1 (g24 (ja_dec (relax E) k d) 1) (g24 (ja_dec (relax E) k d) 4) n) (job_key k 2 (g24 (ja_dec (relax E) k d) 1) (g24 (ja_dec (relax E) k d) 4) n))) as J.
    destruct (HJ _ _ J) as [A C]. change (ja_dec (relax E) k d) with (ja_dec E k d) in *. rewrite <- ED in *.
    assert (LD : length D = length d) by (rewrite ED; apply ja_dec_length; assumption).
    assert (BD : bytes_ok D) by (rewrite ED; apply ja_dec_bytes; assumption). split; [|split].
    + rewrite C. cbn [app]. unfold ja_msg. rewrite LD. reflexivity.
    + intros _. rewrite A, map_app. rewrite !key_block_d by (try exact BD; unfold len in Ld; lia). reflexivity.
    + intro V. exfalso. apply V. apply (ja_valid_dec E k d Ld). split; [assumption|]. match goal with Q : ja_mic _ = _ |- _ => exact Q end.
Qed.
Print Assumptions C76_join_accept.

(** No other call uses the crypto functions. *)
Theorem C76_others E w o v es w' : env_ok E -> reachable E w -> op_wf o -> step E w o = Some (v, es, w') ->
  tx_frames es = [] -> (forall m, o = OIrq m -> ~ receives w m) -> aes_calls es = [] /\ cmac_calls es = [].
Proof.
  intros HE Hr Hw H Tf Nr. pose proof (reach_Inv E w HE Hr) as HI. apply job_calls.
  apply step_inv in H; try assumption.
  assert (SC : forall e p d c h1 s1 s' es', send_cases E p d c h1 s1 (Ok (e, s', es')) -> tx_frames es' = [] -> job es' [] []).
  { intros e p d c h1 s1 s' es' S T. inv_ok S; try (apply job_none; first [constructor | apply rand_nocrypto]). exfalso. rewrite <- tx_of_link, send_link in T. discriminate. }
  destruct H as [o v s' H|r|e s' es H|p d c e s' es H|t|m s' es H|e b n p es s' H1 H2 H3|a e H1 H2|a e s' es H1 H|e H1 H2|e s' es H1 H].
  - apply job_none. constructor.
  - apply job_none. unfold init_evs. repeat constructor.
  - inv_ok H; try (apply job_none; first [constructor | apply rand_nocrypto]). exfalso. rewrite <- tx_of_link, join_link in Tf. discriminate.
  - eapply SC; eassumption.
  - apply job_none. unfold timer_evs. destruct (uw_state _), t; repeat constructor.
  - specialize (Nr m eq_refl). inv_ok H; try (apply job_none; repeat constructor; fail).
    + apply job_none. unfold tx_done_evs. apply Forall_app. split; [repeat constructor|]. unfold tx_done_time.
      destruct (mac_save_dev_time _); [|constructor]. destruct (mac_cbs _) as [cb|]; [|constructor]. destruct (has_get_device_time cb); repeat constructor.
    + exfalso. apply Nr. unfold receives, stk, flag in *. auto.
    + exfalso. apply Nr. unfold receives, stk, flag in *. auto.
  - apply job_none. revert H3. apply Forall_impl. intros []; cbn; intro; reflexivity || discriminate.
  - apply job_none. constructor.
  - eapply job_to; [apply (job_app [_]); [apply job_none; repeat constructor|eapply SC; [exact H|exact Tf]]|reflexivity|reflexivity].
  - apply job_none. constructor.
  - eapply SC; eassumption.
Qed.
Print Assumptions C76_others.

Lemma nodup_app {A} (a b : list A) : NoDup a -> NoDup b -> (forall x, In x a -> ~ In x b) -> NoDup (a ++ b).
Proof.
  intros Ha Hb D. induction Ha as [|x a N Ha IH]; [exact Hb|]. cbn [app]. constructor.
  - rewrite in_app_iff. intros [X|X]; [contradiction|]. apply (D x); [left; reflexivity|exact X].
  - apply IH. intros y Y. apply D. right. exact Y.
Qed.
Lemma in_payload k dir addr c n x : In x (payload_blocks k dir addr c n) -> exists i, x = (k, block_a dir addr c (Z.of_nat i)).
Proof. unfold payload_blocks. intro H. apply in_map_iff in H as (i & <- & _). exists i. reflexivity. Qed.
Lemma app_parts {A} (a : list A) : forall a' b b', length a = length a' -> a ++ b = a' ++ b' -> a = a' /\ b = b'.
Proof.
  induction a as [|x a IH]; intros [|y a'] b b' L H; try discriminate; [split; [reflexivity|exact H]|].
  injection L as L. injection H as -> H. destruct (IH _ _ _ L H) as [-> ->]. split; reflexivity.
Qed.
Lemma block_a_inj dir addr c c' i i' : 0 <= c < 4294967296 -> 0 <= c' < 4294967296 -> block_a dir addr c i = block_a dir addr c' i' -> c = c' /\ i = i'.
Proof.
  intros Hc Hc' H. unfold block_a in H. apply app_inv_head in H. apply app_inv_head in H.
  apply app_parts in H as [H1 H2]; [|reflexivity]. injection H2 as ->.
  split; [|reflexivity]. apply (f_equal unle) in H1. rewrite !unle_le in H1. change (256 ^ Z.of_nat 4) with 4294967296 in H1. rewrite !Z.mod_small in H1 by assumption. exact H1.
Qed.
Lemma payload_nodup k dir addr c n : 0 <= c < 4294967296 -> NoDup (payload_blocks k dir addr c n).
Proof.
  intro Hc. unfold payload_blocks. assert (N := seq_NoDup ((n + 15) / 16) 1). induction N as [|i l Ni N IH]; [constructor|]. cbn [map]. constructor; [|exact IH].
  rewrite in_map_iff. intros (j & Q & J). assert (Q' : block_a dir addr c (Z.of_nat j) = block_a dir addr c (Z.of_nat i)) by congruence.
  apply block_a_inj in Q'; [|assumption|assumption]. apply Ni. replace i with j by lia. exact J.
Qed.
Lemma streams_nodup k dir addr : forall cs ns, NoDup cs -> Forall (fun c => 0 <= c < 4294967296) cs ->
  NoDup (flat_map (fun cn => payload_blocks k dir addr (fst cn) (snd cn)) (combine cs ns)).
Proof.
  induction cs as [|c cs IH]; intros ns N F; [constructor|]. destruct ns as [|n ns]; [constructor|]. cbn [combine flat_map fst snd].
  inversion N as [|? ? Nc N']; subst. inversion F as [|? ? Fc F']; subst.
  apply nodup_app; [apply payload_nodup; exact Fc|apply IH; assumption|].
  intros x X Y. apply in_payload in X as (i & ->). apply in_flat_map in Y as ([c' n'] & Y1 & Y2). apply in_payload in Y2 as (j & Q). cbn [fst snd] in Q.
  apply in_combine_l in Y1. assert (Q' : block_a dir addr c (Z.of_nat i) = block_a dir addr c' (Z.of_nat j)) by congruence.
  rewrite Forall_forall in F'. apply block_a_inj in Q' as [-> _]; [contradiction|assumption|apply F'; exact Y1].
Qed.
Lemma up_blocks_run E w ops tr w' : env_ok E -> reachable E w -> Forall op_wf ops -> exec E w ops tr w' -> Forall (fun t => ~ new_session_entry t) tr ->
  exists ns, length ns = length (data_frames tr) /\
    up_blocks tr = flat_map (fun cn => payload_blocks (app_s_key (ses w)) UP (dev_addr (ses w)) (fst cn) (snd cn)) (combine (counters (f_cnt_up (ses w)) (length ns)) ns).
Proof.
  intros HE Hr Hw H Hn. induction H as [w|w o ops v es w1 tr w2 Hs He IH]; [exists []; split; reflexivity|].
  inversion Hw as [|? ? Ho Hw']; subst. inversion Hn as [|? ? Hn1 Hn']; subst.
  pose proof (reach_Inv E w HE Hr) as HI. pose proof (step_reach E w o v es w1 Hr Ho Hs) as Hr1.
  destruct (IH Hr1 Hw' Hn') as (ns & L & Q). destruct (step_ses E w o v es w1 HE HI Ho Hs Hn1) as [[S1 S2 S3] Hc]. rewrite S1, S3 in Q.
  assert (Hup : 0 <= f_cnt_up (ses w) < 4294967296) by apply (sk_up _ (iv_ses _ HI)).
  assert (Hd : data_frames ((o, v, es) :: tr) = data_frames [(o, v, es)] ++ data_frames tr) by (unfold data_frames; cbn [flat_map]; rewrite app_nil_r; reflexivity).
  assert (Hb : up_blocks ((o, v, es) :: tr) = up_blocks [(o, v, es)] ++ up_blocks tr) by (unfold up_blocks; cbn [flat_map]; rewrite app_nil_r; reflexivity).
  assert (One : (data_frames [(o, v, es)] = [] /\ up_blocks [(o, v, es)] = []) \/ exists f n, data_frames [(o, v, es)] = [f] /\
     up_blocks [(o, v, es)] = payload_blocks (app_s_key (ses w)) UP (dev_addr (ses w)) (f_cnt_up (ses w)) n).
  { unfold data_frames, up_blocks. cbn [flat_map fst snd]. rewrite !app_nil_r.
    assert (Hj : o = OJoin \/ o <> OJoin) by (destruct o; auto; right; discriminate). destruct Hj as [->|Hj]; [left; split; reflexivity|].
    destruct (C01_every_uplink_pf E w o v es w1 HE Hr Ho Hj Hs) as [Hz|(cf & p & d & _ & _ & Hz)].
    - left. rewrite Hz. split; destruct o; reflexivity.
    - right. destruct (C76_uplink E w o v es w1 _ HE Hr Ho Hj Hs Hz) as [A _]. rewrite Hz. do 2 eexists. rewrite A. split; destruct o; try reflexivity; congruence. }
  rewrite Hd, Hb, app_length, Q. destruct One as [[Z1 Z2]|(f & n & Z1 & Z2)]; rewrite Z1 in Hc |- *; rewrite Z2; cbn [app length] in *.
  - exists ns. split; [exact L|]. change (Z.of_nat 0) with 0 in Hc. rewrite Z.add_0_r, Z.mod_small in Hc by exact Hup. rewrite Hc. reflexivity.
  - exists (n :: ns). split; [cbn [length]; lia|]. change (Z.of_nat 1) with 1 in Hc. cbn [length]. rewrite counters_S by exact Hup. rewrite Hc. reflexivity.
Qed.
(** Within a session no block of the uplink keystream is used twice, up to the end of the
    counter. Beyond: C76_keystream_refuted (Prop_Cred.v). *)
Theorem C76_keystream_partial E w ops tr w' : env_ok E -> reachable E w -> Forall op_wf ops -> exec E w ops tr w' -> Forall (fun t => ~ new_session_entry t) tr ->
  Z.of_nat (length (data_frames tr)) <= 4294967296 -> NoDup (up_blocks tr).
Proof.
  intros HE Hr Hw H Hn B. destruct (up_blocks_run E w ops tr w' HE Hr Hw H Hn) as (ns & L & ->).
  apply streams_nodup; [apply counters_NoDup; rewrite L; exact B|]. unfold counters. apply Forall_forall. intros c Hc. apply in_map_iff in Hc as (i & <- & _). apply Z.mod_pos_bound. lia.
Qed.
Print Assumptions C76_keystream_partial.

(** ** Cases *)
Definition pairs_eqb (a b : list (list Z * list Z)) : bool :=
  (length a =? length b)%nat && forallb (fun xy => list_eqb (fst (fst xy)) (fst (snd xy)) && list_eqb (snd (fst xy)) (snd (snd xy))) (combine a b).
Example C76_uplink_case : case_of (demo [] []) (abp 65537 0) (OSend 7 (map Z.of_nat (seq 1 40)) true)
  (fun w v es w' => match tx_frames es with
     | [f] => (frm_len f =? 40)%nat &&
       pairs_eqb (aes_calls es) (map (fun i => (k2, [1; 0; 0; 0; 0; 0; 1; 16; 1; 38; 1; 0; 1; 0; 0; i])) [1; 2; 3]) &&
       pairs_eqb (cmac_calls es) [(k1, [73; 0; 0; 0; 0; 0; 1; 16; 1; 38; 1; 0; 1; 0; 0; 49] ++ firstn 49 f)]
     | _ => false end).
Proof. show_case. Qed.
(** crypto functions that are right on these four calls only give the same frame *)
Example C76_answers_case : case_of (demo [] []) (abp 65537 0) (OSend 7 (map Z.of_nat (seq 1 40)) true)
  (fun w v es w' =>
     let only (f : list Z -> list Z -> list Z) calls k x := if existsb (fun c => list_eqb (fst c) k && list_eqb (snd c) x) calls then f k x else [] in
     let other calls calls' := match step (with_crypto (only toy_aes calls) (only toy_cmac calls') (demo [] [])) w (OSend 7 (map Z.of_nat (seq 1 40)) true) with
       | Some (_, es', _) => match tx_frames es, tx_frames es' with [f], [f'] => list_eqb f f' | _, _ => false end | None => false end in
     other (aes_calls es) (cmac_calls es) && negb (other (tl (aes_calls es)) (cmac_calls es))).
Proof. show_case. Qed.
Example C76_join_request_case : case_of (demo [7; 300] []) (otaa EU868) OJoin
  (fun w v es w' => is_nil (aes_calls es) && match tx_frames es with [f] => pairs_eqb (cmac_calls es) [(k3, firstn 19 f)] | _ => false end).
Proof. show_case. Qed.
Example C76_downlink_case : case_of (demo [] [(dl 65540 false 3 [2; 9; 1] (Some (0, [6; 6])), 9)]) (abp 0 65530 ++ after_uplink) (OIrq 2)
  (fun w v es w' => recvb w 2 && pairs_eqb (aes_calls es) [(k1, [1; 0; 0; 0; 0; 1; 1; 16; 1; 38; 4; 0; 1; 0; 0; 1])] &&
     match cmac_calls es with [(k, m)] => list_eqb k k1 && list_eqb (firstn 16 m) [73; 0; 0; 0; 0; 1; 1; 16; 1; 38; 4; 0; 1; 0; 0; 14] && (length m =? 30)%nat | _ => false end).
Proof. show_case. Qed.
Example C76_downlink_app_case : case_of (demo [] [(dl 9 true 0 [6] (Some (5, repeat 1 17)), 9)]) (abp 0 7 ++ after_uplink) (OIrq 2)
  (fun w v es w' => recvb w 2 && pairs_eqb (aes_calls es) (map (fun i => (k2, [1; 0; 0; 0; 0; 1; 1; 16; 1; 38; 9; 0; 0; 0; 0; i])) [1; 2])).
Proof. show_case. Qed.
Example C76_forged_case : case_of (demo [] [(flip_last (dl 8 true 0 [6] (Some (5, [1; 2; 3]))), 9)]) (abp 0 7 ++ after_uplink) (OIrq 2)
  (fun w v es w' => recvb w 2 && is_nil (aes_calls es) && (length (cmac_calls es) =? 1)%nat).
Proof. show_case. Qed.
Example C76_same_counter_case : case_of (demo [] [(dl 7 true 0 [6] (Some (5, [1; 2; 3])), 9)]) (abp 0 7 ++ after_uplink) (OIrq 2)
  (fun w v es w' => recvb w 2 && is_nil (aes_calls es) && is_nil (cmac_calls es)).
Proof. show_case. Qed.
Definition ja76 : list Z := join_accept_frame toy_cmac toy_dec k3 1193046 7 637603841 35 5 [].
Example C76_join_accept_case : case_of (demo [7; 300] [(ja76, 5)]) (join_ops EU868) (OIrq 2)
  (fun w v es w' => recvb w 2 && joining w && (uw_dev_nonce (stk w) =? 300) &&
     pairs_eqb (aes_calls es) (map (pair k3) [slice ja76 1 16; [1; 86; 52; 18; 7; 0; 0; 44; 1] ++ repeat 0 7; [2; 86; 52; 18; 7; 0; 0; 44; 1] ++ repeat 0 7]) &&
     (length (cmac_calls es) =? 1)%nat && list_eqb (nwk_s_key (ses w')) (toy_aes k3 ([1; 86; 52; 18; 7; 0; 0; 44; 1] ++ repeat 0 7))).
Proof. show_case. Qed.
Example C76_join_accept_forged_case : case_of (demo [7; 300] [(flip_last ja76, 5)]) (join_ops EU868) (OIrq 2)
  (fun w v es w' => recvb w 2 && joining w && pairs_eqb (aes_calls es) [(k3, slice (flip_last ja76) 1 16)] && (length (cmac_calls es) =? 1)%nat).
Proof. show_case. Qed.
Example C76_others_case : case_of (demo [] []) (abp 0 0 ++ [OSend 1 [1] false; OIrq 4]) (OTimer TIMER_RX1)
  (fun w v es w' => negb (is_nil es) && is_nil (tx_frames es) && is_nil (aes_calls es) && is_nil (cmac_calls es)).
Proof. show_case. Qed.
(** three uplinks across the 32-bit wrap: 2 + 1 + 3 different blocks *)
Example C76_keystream_case :
  run_of (demo [] []) (abp 4294967294 0)
    [OSend 1 (repeat 5 17) false; OIrq 4; OIrq 1; OIrq 1; OSend 1 [7] true; OIrq 4; OIrq 1; OIrq 1; OSend 1 (repeat 8 33) false]
    (fun w tr w' => (length (data_frames tr) =? 3)%nat && (length (up_blocks tr) =? 6)%nat && (f_cnt_up (ses w') =? 1)).
Proof. show_run. Qed.
