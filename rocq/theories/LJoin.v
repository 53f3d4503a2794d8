(** LJoin.v -- join-accept lemmas (infrastructure for C26 - C29). *)
From Verif Require Export LRx SpecRx.

Lemma blocks_inv E dec key : aes_inverse E dec -> forall n l, length l = (16 * n)%nat -> bytes_ok l ->
  blocks (e_aes E) key n (blocks dec key n l) = l /\ length (blocks dec key n l) = (16 * n)%nat.
Proof.
  intro HA. induction n; intros l Hl Hb; cbn [blocks].
  - destruct l; [split; reflexivity|cbn in Hl; lia].
  - destruct (HA key (firstn 16 l)) as [L1 A1]; [rewrite firstn_length; lia|apply bytes_firstn; exact Hb|].
    destruct (IHn (skipn 16 l)) as [A2 L2]; [rewrite skipn_length; lia|apply bytes_skipn; exact Hb|].
    split; [|rewrite app_length, L1, L2; lia].
    rewrite firstn_app, skipn_app, L1, Nat.sub_diag, firstn_O, app_nil_r, (skipn_all2 (dec _ _)) by lia.
    rewrite (firstn_all2 (dec _ _)) by lia. rewrite skipn_O, app_nil_l.
    rewrite A1, A2. apply firstn_skipn.
Qed.

Lemma le_bytes n : forall v, bytes_ok (le n v).
Proof. induction n; intro v; cbn [le]; constructor; [apply Z.mod_pos_bound; lia|apply IHn]. Qed.
Lemma le_length n : forall v, length (le n v) = n.
Proof. induction n; intro v; cbn [le length]; [reflexivity|rewrite IHn; reflexivity]. Qed.

Lemma ja_clear_dec E key d : len d = 17 \/ len d = 33 -> ja_clear E key d = ja_dec E key d.
Proof.
  intro H. unfold ja_clear, ja_dec, ja_blocks, len in *.
  destruct H as [H|H]; rewrite H; cbn [Z.eqb Pos.eqb];
    [replace (length d) with 17%nat by lia|replace (length d) with 33%nat by lia]; reflexivity.
Qed.

(** the server's frame decrypts to what the server put in *)
Lemma ja_frame_clear E dec key an ni addr dl rxd cf : env_ok E -> aes_inverse E dec ->
  is_byte dl -> is_byte rxd -> cf = [] \/ (length cf = 16%nat /\ bytes_ok cf) ->
  let body := join_accept_body an ni addr dl rxd cf in
  let f := join_accept_frame (e_cmac E) dec key an ni addr dl rxd cf in
  (len f = 17 /\ cf = [] \/ len f = 33 /\ length cf = 16%nat) /\ get f 0 = 32 /\
  ja_dec E key f = [32] ++ body ++ firstn 4 (e_cmac E key ([32] ++ body)).
Proof.
  intros HE HA Hdl Hrd Hcf body f.
  assert (Hbl : length body = (12 + length cf)%nat).
  { unfold body, join_accept_body. rewrite !app_length, !le_length. cbn [length]. lia. }
  assert (Hbb : bytes_ok body).
  { unfold body, join_accept_body. unfold bytes_ok. rewrite !Forall_app.
    split; [apply le_bytes|]. split; [apply le_bytes|]. split; [apply le_bytes|].
    split; [constructor; [exact Hdl|constructor; [exact Hrd|constructor]]|].
    destruct Hcf as [->|[_ H]]; [constructor|exact H]. }
  set (plain := body ++ firstn 4 (e_cmac E key ([32] ++ body))).
  assert (Hpl : length plain = (16 + length cf)%nat).
  { unfold plain. rewrite app_length, firstn_length, (ok_cmac_len E HE). lia. }
  assert (Hpb : bytes_ok plain).
  { unfold plain, bytes_ok. rewrite Forall_app. split; [exact Hbb|]. apply bytes_firstn. apply (ok_cmac_byte E HE). }
  change f with ([32] ++ blocks dec key (length plain / 16) plain).
  assert (Hn : exists n, length plain = (16 * n)%nat /\ (length plain / 16 = n)%nat /\
     (n = 1%nat /\ cf = [] \/ n = 2%nat /\ length cf = 16%nat)).
  { rewrite Hpl. destruct Hcf as [->|[-> _]]; [exists 1%nat|exists 2%nat]; cbn; auto. }
  destruct Hn as (n & N1 & N2 & N3). rewrite N2.
  destruct (blocks_inv E dec key HA n plain N1 Hpb) as [B1 B2].
  assert (Hlen : len ([32] ++ blocks dec key n plain) = 1 + 16 * Z.of_nat n)
    by (unfold len; rewrite app_length, B2; cbn [length]; lia).
  split; [destruct N3 as [[-> ?]|[-> ?]]; [left|right]; split; assumption || lia|]. split; [reflexivity|].
  unfold ja_dec. rewrite Hlen. cbn [app firstn skipn].
  replace (ja_blocks (1 + 16 * Z.of_nat n)) with n by (destruct N3 as [[-> _]|[-> _]]; reflexivity).
  rewrite B1. reflexivity.
Qed.

Lemma le3_val v : 0 <= v < 16777216 -> v mod 256 + 256 * (v / 256 mod 256) + 65536 * (v / 256 / 256 mod 256) = v.
Proof.
  intro H. rewrite (Z.div_div v) by lia. change (256 * 256) with 65536.
  rewrite (Z.mod_small (v / 65536)) by (split; [apply Z.div_pos; lia|apply Z.div_lt_upper_bound; lia]).
  pose proof (Z.div_mod v 256 ltac:(lia)). pose proof (Z.div_mod (v / 256) 256 ltac:(lia)).
  rewrite Z.div_div in * by lia. change (256 * 256) with 65536 in *. lia.
Qed.
Lemma le4_val v : 0 <= v < 4294967296 ->
  v mod 256 + 256 * (v / 256 mod 256) + 65536 * (v / 256 / 256 mod 256) + 16777216 * (v / 256 / 256 / 256 mod 256) = v.
Proof.
  intro H. rewrite !(Z.div_div v) by lia. change (256 * 256) with 65536. change (65536 * 256) with 16777216.
  rewrite (Z.mod_small (v / 16777216)) by (split; [apply Z.div_pos; lia|apply Z.div_lt_upper_bound; lia]).
  pose proof (Z.div_mod v 256 ltac:(lia)). pose proof (Z.div_mod (v / 256) 256 ltac:(lia)).
  pose proof (Z.div_mod (v / 65536) 256 ltac:(lia)).
  rewrite !Z.div_div in * by lia. change (256 * 256) with 65536 in *. change (65536 * 256) with 16777216 in *. lia.
Qed.

Lemma ja_fields an ni addr dl rxd cf mic : 0 <= an < 16777216 -> 0 <= ni < 16777216 -> 0 <= addr < 4294967296 ->
  let D := [32] ++ join_accept_body an ni addr dl rxd cf ++ mic in
  g24 D 1 = an /\ g24 D 4 = ni /\ g32 D 7 = addr /\ get D 11 = dl /\ get D 12 = rxd /\
  (length cf = 16%nat -> sub D 13 16 = cf) /\ len D = 13 + len cf + len mic.
Proof.
  intros Ha Hn Hd D. split; [|split; [|split; [|split; [|split; [|split]]]]].
  - unfold g24. cbn -[Z.mul Z.div Z.modulo]. apply le3_val. exact Ha.
  - unfold g24. cbn -[Z.mul Z.div Z.modulo]. apply le3_val. exact Hn.
  - unfold g32, g24. cbn -[Z.mul Z.div Z.modulo]. apply le4_val. exact Hd.
  - reflexivity.
  - reflexivity.
  - intro Hc. unfold sub. change (Z.to_nat 13) with 13%nat. change (Z.to_nat 16) with 16%nat.
    unfold D, join_accept_body. cbn [le app skipn].
    rewrite firstn_app, firstn_all2 by lia. rewrite Hc, Nat.sub_diag, firstn_O. apply app_nil_r.
  - unfold D, join_accept_body, len. rewrite !app_length, !le_length. cbn [length]. lia.
Qed.

(** the reception of a frame while joining, as a step *)
Inductive join_out (E : env) (w : world) (d : list Z) (es : list ev) (w' : world) : Prop :=
| JO_bad r view : ~ ja_valid E (app_key w) d -> r <> ERR_NO ->
    (len d <> 17 /\ len d <> 33 -> r = ERR_MSG_LEN) ->
    (len d = 17 \/ len d = 33 -> at_ d 0 <> 32 -> r = ERR_MSG_MHDR) ->
    (len d = 17 \/ len d = 33 -> at_ d 0 = 32 -> r = ERR_MSG_MIC) ->
    callbacks es = [(r, get (frame (rx_s1 E w)) 0 / 32, view)] -> mac_calls es = [] ->
    kept w w' -> joining w' = false -> uw_state (stk w') = IDLE -> join_out E w d es w'
| JO_ok rg view : ja_valid E (app_key w) d -> uw_region (stk w) = Some rg ->
    callbacks es = [(ERR_NO, 1, view)] -> mac_calls es = [] ->
    let D := ja_dec E (app_key w) d in
    w_st w' = end_dl (ja_state E rg D (with_frame (over D (frame (rx_s1 E w))) (rx_s1 E w))) ->
    join_out E w d es w'.

Lemma ja_valid_dec E key d : len d = 17 \/ len d = 33 ->
  (ja_valid E key d <-> get d 0 = 32 /\ ja_mic (ja_dec E key d) = firstn 4 (e_cmac E key (ja_msg (ja_dec E key d)))).
Proof.
  intro H. unfold ja_valid. rewrite ja_clear_dec by exact H. rewrite at_get. change (Z.of_nat 0) with 0.
  unfold ja_mic, ja_msg, MHDR_JOIN_ACC, len in *. split; [intros (_ & A & B); auto|intros [A B]; repeat split; auto; lia].
Qed.

Lemma join_outcome E w m v es w' : env_ok E -> Inv (w_st w) -> step E w (OIrq m) = Some (v, es, w') ->
  receives w m -> joining w = true -> join_out E w (rx_data (received E w)) es w'.
Proof.
  intros HE HI H Hr Hj. destruct (rx_pre_calls w) as [P1 P2].
  destruct (rx_join_step E w m v es w' HE HI H Hr Hj) as (r & t & view & s2 & es1 & Hw & -> & Hd). cbv zeta in *.
  destruct (rx_step E w m v _ w' HE HI H Hr) as (es2 & Hes & Hdl).
  apply app_inv_head in Hes. subst es2.
  set (d := rx_data (received E w)) in *. set (rx := received E w) in *.
  assert (Ht : t = get (frame (rx_s1 E w)) 0 / 32).
  { inv_ok Hdl.
    - injection Ee as Ee. apply app_inj_tail in Ee. destruct Ee as [_ Ee]. injection Ee as _ <- _. reflexivity.
    - injection Ee as Ee. apply app_inj_tail in Ee. destruct Ee as [_ Ee]. injection Ee as _ <- _. reflexivity. }
  pose proof (ja_quiet _ _ _ _ _ _ Hd) as Hq.
  assert (O1 : callbacks (rx_pre w ++ RRead rx :: RSleep :: es1 ++ [CbDown r t view]) = [(r, t, view)]).
  { rewrite callbacks_app, P2. cbn [app callbacks]. rewrite callbacks_app, (quiet_callbacks es1 (crypto_quiet _ Hq)). reflexivity. }
  assert (O2 : mac_calls (rx_pre w ++ RRead rx :: RSleep :: es1 ++ [CbDown r t view]) = []).
  { rewrite mac_calls_app, P1. cbn [app]. change (mac_calls (RRead rx :: RSleep :: es1 ++ [CbDown r t view])) with (mac_calls (es1 ++ [CbDown r t view])).
    rewrite mac_calls_app, (mac_calls_crypto es1 Hq). reflexivity. }
  assert (A0 : at_ d 0 = get d 0) by (rewrite at_get; reflexivity).
  clear Hdl H. remember (Ok (r, s2, es1)) as x eqn:Ex. destruct Hd; apply Ok_inj in Ex; destruct Ex as (<- & <- & <-).
  - eapply JO_bad with (r := ERR_MSG_LEN); [|discriminate|intros; reflexivity|intros; lia|intros; lia|rewrite <- Ht; exact O1|exact O2| | |].
    + intros (A & _). unfold len in *. lia.
    + unfold kept, ses, stk. rewrite Hw. repeat split; reflexivity.
    + unfold joining, stk. rewrite Hw. reflexivity.
    + unfold stk. rewrite Hw. reflexivity.
  - eapply JO_bad with (r := ERR_MSG_MHDR); [|discriminate|intros; lia|intros; reflexivity|intros; congruence|rewrite <- Ht; exact O1|exact O2| | |].
    + intro A. apply ja_valid_dec in A; [|assumption]. destruct A. contradiction.
    + unfold kept, ses, stk. rewrite Hw. repeat split; reflexivity.
    + unfold joining, stk. rewrite Hw. reflexivity.
    + unfold stk. rewrite Hw. reflexivity.
  - eapply JO_bad with (r := ERR_MSG_MIC); [|discriminate|intros; lia|intros; congruence|intros; reflexivity|rewrite <- Ht; exact O1|exact O2| | |].
    + intro A. apply ja_valid_dec in A; [|assumption]. destruct A as [_ A]. contradiction.
    + unfold kept, ses, stk. rewrite Hw. repeat split; reflexivity.
    + unfold joining, stk. rewrite Hw. reflexivity.
    + unfold stk. rewrite Hw. reflexivity.
  - eapply (JO_ok E w d _ w'); [| |rewrite O1, Ht; f_equal; f_equal; f_equal|exact O2|exact Hw].
    + apply ja_valid_dec; [assumption|]. split; assumption.
    + assumption.
    + assert (Hf : get (frame (rx_s1 E w)) 0 = get d 0).
      { unfold rx_s1, rx_state. rewrite frame_with. apply get_over. change (0 <= 0 < len d). lia. }
      rewrite Hf. rewrite H0. reflexivity.
Qed.
