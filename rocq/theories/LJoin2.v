(** LJoin2.v -- proofs for the join properties (C26 - C29). *)
From Verif Require Export LJoin.

(** accepted callbacks of a call *)
Lemma accepts_b es : accepts_join_b es = true <-> accepts_join es.
Proof.
  unfold accepts_join_b, accepts_join. rewrite existsb_exists. split.
  - intros ([[e t] v] & Hi & He). destruct e; try discriminate. apply Z.eqb_eq in He. subst t. exists v.
    induction es as [|x es IH]; [destruct Hi|]. destruct x; cbn [callbacks] in Hi; try (right; apply IH; exact Hi).
    destruct Hi as [Hi|Hi]; [left; injection Hi as -> -> ->; reflexivity|right; apply IH; exact Hi].
  - intros [v Hi]. exists (ERR_NO, MTYPE_JOIN_ACCEPT, v). split; [|reflexivity].
    induction es as [|x es IH]; [destruct Hi|]. destruct Hi as [->|Hi]; [left; reflexivity|].
    destruct x; cbn [callbacks]; try (apply IH; exact Hi). right. apply IH. exact Hi.
Qed.
Lemma accepts_nocb es : callbacks es = [] -> accepts_join_b es = false.
Proof. intro H. unfold accepts_join_b. rewrite H. reflexivity. Qed.
Lemma accepts_cb es e t v : callbacks es = [(e, t, v)] ->
  accepts_join_b es = match e with ERR_NO => t =? MTYPE_JOIN_ACCEPT | _ => false end.
Proof. intro H. unfold accepts_join_b. rewrite H. cbn [existsb]. destruct e; rewrite ?orb_false_r; reflexivity. Qed.

Lemma rx_frame0 E w : (0 < length (rx_data (received E w)))%nat ->
  get (frame (rx_s1 E w)) 0 = get (rx_data (received E w)) 0.
Proof. intro H. unfold rx_s1, rx_state. rewrite frame_with. apply get_over. unfold len. lia. Qed.

(** a data frame is never reported as an accepted join *)
Lemma data_not_join E w m v es w' : env_ok E -> Inv (w_st w) -> step E w (OIrq m) = Some (v, es, w') ->
  receives w m -> joining w = false -> accepts_join_b es = false.
Proof.
  intros HE HI H Hr Hj. destruct (rx_outcome E w m v es w' HE HI H Hr Hj) as [r t vw A B C D|r t vw A B C0 C D|c t vw A B C|c A B C D F].
  - rewrite (accepts_cb _ _ _ _ D). destruct r; congruence.
  - rewrite (accepts_cb _ _ _ _ D). destruct r; congruence.
  - rewrite (accepts_cb _ _ _ _ C). reflexivity.
  - match goal with X : callbacks es = _ |- _ => rewrite (accepts_cb _ _ _ _ X) end. destruct A as ((A1 & A2 & A3) & _).
    rewrite rx_frame0 by (unfold len in A1; lia). unfold d_mtype in A3. unfold MTYPE_JOIN_ACCEPT. destruct A3 as [->| ->]; reflexivity.
Qed.

Lemma init_evs_cb E h : callbacks (init_evs E h) = [].
Proof. reflexivity. Qed.
Lemma timer_evs_cb t s : callbacks (timer_evs t s) = [].
Proof. unfold timer_evs. destruct (uw_state (s_stk s)), t; reflexivity. Qed.

Lemma irq_joined E w m v es w' : env_ok E -> Inv (w_st w) -> step E w (OIrq m) = Some (v, es, w') ->
  is_joined (ses w') = if accepts_join_b es then true else is_joined (ses w).
Proof.
  intros HE HI H. destruct (receives_dec w m) as [Hr|Hr].
  - destruct (joining w) eqn:Hj.
    + destruct (join_outcome E w m v es w' HE HI H Hr Hj) as [r vw A B _ _ _ C D K|rg vw A B C D E' F].
      * rewrite (accepts_cb _ _ _ _ C). destruct K as (_ & _ & _ & -> & _). destruct r; congruence.
      * rewrite (accepts_cb _ _ _ _ C). unfold ses. rewrite F. reflexivity.
    + rewrite (data_not_join E w m v es w' HE HI H Hr Hj).
      destruct (step_irq E w m v es w' HE HI H) as (_ & Hc).
      destruct (irq_ses (relax E) m (w_hist w) (w_st w) (w_st w') es (relax_ok E HE) eq_refl HI Hc) as [Ha|(_ & _ & Ha)]; [|exact Ha].
      apply accepts_b in Ha. rewrite (data_not_join E w m v es w' HE HI H Hr Hj) in Ha. discriminate.
  - destruct (norx_step E w m v es w' HE HI H Hr) as [A _ _ _ _ B _ _ _]. rewrite A.
    destruct B as [B|(e & B1 & B2)]; [rewrite accepts_nocb by exact B; reflexivity|].
    rewrite (accepts_cb _ _ _ _ B2). destruct e; congruence.
Qed.

Lemma send_joined E p d c h s e s' es : send_cases E p d c h s (Ok (e, s', es)) ->
  is_joined (s_ses s') = is_joined (s_ses s) /\ callbacks es = [].
Proof.
  intro H. inv_ok H; try (split; reflexivity).
  - split; [reflexivity|]. apply quiet_callbacks. apply rand_quiet.
  - split; [reflexivity|]. apply quiet_callbacks. apply rand_quiet.
  - split.
    + unfold send_state, send_ses. cbn [s_ses]. destruct (backs_off s); destruct (ack_required (s_ses s)); reflexivity.
    + apply (send_obs E h p d c s).
Qed.
Lemma cs_joined es : Forall (fun x => is_cs_ev x = true) es -> callbacks es = [].
Proof. intro H. apply (quiet_obs es (cs_quiet es H)). Qed.
Lemma step_joined E w o v es w' : env_ok E -> Inv (w_st w) -> op_wf o -> step E w o = Some (v, es, w') ->
  is_joined (ses w') = joined_step (is_joined (ses w)) (o, v, es).
Proof.
  intros HE HI Hw H. pose proof H as H0. apply step_inv in H; try assumption. unfold ses. remember (w_st w') as sw eqn:Esw.
  destruct H as [o v s' H|r|e s' es H|p d c e s' es H|t|m s' es H|e b n p es s' H1 H2 H3|a e H1 H2|a e s' es H1 H|e H1 H2|e s' es H1 H].
  - assert (Ha : accepts_join_b [] = false) by reflexivity.
    destruct o; cbn [simple] in H; try discriminate;
      repeat match type of H with context [if ?b then _ else _] => destruct b end;
      injection H as <- <-; reflexivity.
  - reflexivity.
  - clear Esw. inv_ok H; cbn [joined_step].
    + reflexivity.
    + rewrite accepts_nocb; [reflexivity|]. apply quiet_callbacks, rand_quiet.
    + reflexivity.
  - destruct (send_joined _ _ _ _ _ _ _ _ _ H) as [A B]. cbn [joined_step]. rewrite accepts_nocb by exact B. exact A.
  - cbn [joined_step]. rewrite accepts_nocb by apply timer_evs_cb. reflexivity.
  - cbn [joined_step]. rewrite Esw. exact (irq_joined E w m _ _ w' HE HI H0).
  - cbn [joined_step]. rewrite accepts_nocb by (apply cs_joined; exact H3). rewrite H1. reflexivity.
  - reflexivity.
  - destruct (send_joined _ _ _ _ _ _ _ _ _ H) as [A B]. cbn [joined_step]. rewrite accepts_nocb by exact B. exact A.
  - reflexivity.
  - destruct (send_joined _ _ _ _ _ _ _ _ _ H) as [A B]. cbn [joined_step]. rewrite accepts_nocb by exact B. exact A.
Qed.

Lemma joined_app tr t : joined_after (tr ++ [t]) = joined_step (joined_after tr) t.
Proof. apply fold_left_app. Qed.
Lemma exec_joined E w ops tr w' : env_ok E -> Inv (w_st w) -> Forall op_wf ops -> exec E w ops tr w' ->
  is_joined (ses w') = fold_left joined_step tr (is_joined (ses w)).
Proof.
  intros HE HI Hw H. induction H as [w|w o ops v es w1 tr w2 H1 H IH]; [reflexivity|].
  inversion Hw; subst. cbn [fold_left]. rewrite <- (step_joined E w o v es w1) by assumption.
  apply IH; [|assumption]. eapply step_Inv; eauto.
Qed.

(** ** The join-request in progress *)
Lemma irq_joining E m h s s' es : irq_cases E m h s (Ok (tt, s', es)) ->
  uw_is_join_state (s_stk s') = true -> uw_is_join_state (s_stk s) = true.
Proof.
  intros H Hj. inv_ok H; try exact Hj; try discriminate Hj.
  all: try match goal with X : dl_cases _ _ _ _ |- _ => inv_ok X; discriminate Hj end.
Qed.
Lemma step_joining E w o v es w' : env_ok E -> Inv (w_st w) -> op_wf o -> step E w o = Some (v, es, w') ->
  joining w' = true -> joining w = true \/ (o = OJoin /\ v = VErr ERR_NO).
Proof.
  intros HE HI Hw H. apply step_inv in H; try assumption. unfold joining, stk.
  destruct H as [o v s' H|r|e s' es H|p d c e s' es H|t|m s' es H|e b n p es s' H1 H2 H3|a e H1 H2|a e s' es H1 H|e H1 H2|e s' es H1 H]; intro Hj; auto.
  - left. destruct o; cbn [simple] in H; try discriminate;
      repeat match type of H with context [if ?b then _ else _] => destruct b end;
      injection H as <- <-; exact Hj.
  - inv_ok H; auto.
  - left. inv_ok H; exact Hj.
  - left. eapply irq_joining; eassumption.
  - left. rewrite H1 in Hj. exact Hj.
  - left. inv_ok H; exact Hj.
  - left. inv_ok H; exact Hj.
Qed.
Lemma step_nonce E w o v es w' : env_ok E -> Inv (w_st w) -> op_wf o -> step E w o = Some (v, es, w') ->
  ~ (o = OJoin /\ v = VErr ERR_NO) -> uw_dev_nonce (stk w') = uw_dev_nonce (stk w).
Proof.
  intros HE HI Hw H Hn. apply step_inv in H; try assumption. unfold stk.
  destruct H as [o v s' H|r|e s' es H|p d c e s' es H|t|m s' es H|e b n p es s' H1 H2 H3|a e H1 H2|a e s' es H1 H|e H1 H2|e s' es H1 H]; auto.
  - destruct o; cbn [simple] in H; try discriminate;
      repeat match type of H with context [if ?b then _ else _] => destruct b end;
      injection H as <- <-; reflexivity.
  - inv_ok H; try reflexivity. exfalso. auto.
  - inv_ok H; reflexivity.
  - apply irq_fr in H; [|apply relax_ok; exact HE|reflexivity|exact HI]. destruct H. assumption.
  - rewrite H1. reflexivity.
  - inv_ok H; reflexivity.
  - inv_ok H; reflexivity.
Qed.
Lemma join_request_nonce cmac ae de k n : length ae = 8%nat -> length de = 8%nat -> 0 <= n < 65536 ->
  request_nonce (join_request cmac ae de k n) = n.
Proof.
  intros Ha Hd Hn. unfold request_nonce, join_request.
  do 9 (destruct ae as [|? ae]; try discriminate Ha). rewrite <- rev_length in Hd.
  set (x := rev de) in *. clearbody x. do 9 (destruct x as [|? x]; try discriminate Hd).
  cbn -[Z.mul Z.div Z.modulo Z.add firstn]. unfold slice. cbn [skipn firstn unle].
  rewrite (Z.mod_small (n / 256)) by (split; [apply Z.div_pos; lia|apply Z.div_lt_upper_bound; lia]).
  pose proof (Z.div_mod n 256 ltac:(lia)). lia.
Qed.
Lemma exec_snoc_ind E (P : list entry -> world -> Prop) : env_ok E -> P [] world0 ->
  (forall ops tr w o v es w', Forall op_wf ops -> exec E world0 ops tr w -> Inv (w_st w) -> reachable E w -> P tr w -> op_wf o ->
     step E w o = Some (v, es, w') -> P (tr ++ [(o, v, es)]) w') ->
  forall ops tr w, Forall op_wf ops -> exec E world0 ops tr w -> P tr w.
Proof.
  intros HE H0 HS.
  assert (G : forall ops2 w tr2 w2, exec E w ops2 tr2 w2 -> forall ops tr, Forall op_wf ops -> Forall op_wf ops2 ->
     exec E world0 ops tr w -> P tr w -> P (tr ++ tr2) w2).
  { intros ops2 w tr2 w2 H. induction H as [w|w o ops2 v es w1 tr2 w2 H1 H IH]; intros ops tr Hw Hw2 Hx HP.
    - rewrite app_nil_r. exact HP.
    - inversion Hw2; subst. assert (Hr : reachable E w) by (exists ops, tr; auto).
      change ((o, v, es) :: tr2) with ([(o, v, es)] ++ tr2). rewrite app_assoc.
      apply (IH (ops ++ [o])); try assumption.
      + apply Forall_app. split; [assumption|]. constructor; [assumption|constructor].
      + clear - Hx H1. induction Hx as [w|w a ops v' es' w' tr w'' H2 H IH2].
        * eapply exec_cons; [exact H1|constructor].
        * eapply exec_cons; [exact H2|]. apply IH2. exact H1.
      + apply (HS ops tr w o v es w1); try assumption. apply (reach_Inv E w HE Hr). }
  intros ops tr w Hw Hx. change tr with ([] ++ tr). apply (G _ _ _ _ Hx [] []); try assumption; constructor.
Qed.

Lemma last_snoc tr t : last_join_request (tr ++ [t]) = join_step (last_join_request tr) t.
Proof. apply fold_left_app. Qed.
Lemma exec_join_nonce E ops tr w : env_ok E -> Forall op_wf ops -> exec E world0 ops tr w ->
  (joining w = true -> last_join_request tr <> None) /\
  (forall f, last_join_request tr = Some f -> uw_dev_nonce (stk w) = request_nonce f).
Proof.
  intros HE. revert ops tr w. apply (exec_snoc_ind E (fun tr w =>
    (joining w = true -> last_join_request tr <> None) /\
    (forall f, last_join_request tr = Some f -> uw_dev_nonce (stk w) = request_nonce f)) HE).
  - split; [discriminate|intros f Hf; discriminate].
  - intros ops tr w o v es w' Hw Hx HI Hr [A B] Hwo H. rewrite last_snoc.
    assert (D : (o = OJoin /\ v = VErr ERR_NO) \/ ~ (o = OJoin /\ v = VErr ERR_NO)).
    { destruct o; try (right; intros [? ?]; discriminate). destruct v as [| | |e]; try (right; intros [? ?]; discriminate).
      destruct e; try (right; intros [? ?]; discriminate). left. auto. }
    destruct D as [[-> ->]|D].
    + destruct (C25_join_request_pf E w es w' HE Hr H) as (n & N1 & N2 & N3).
      cbn [join_step]. rewrite N3. split; [discriminate|]. intros f Hf. injection Hf as <-. rewrite N2. symmetry.
      pose proof (iv_stk _ HI) as K. apply join_request_nonce; [apply K|apply K|exact N1].
    + assert (Hj : join_step (last_join_request tr) (o, v, es) = last_join_request tr).
      { destruct o; try reflexivity. destruct v as [| | |e]; try reflexivity. destruct e; try reflexivity. exfalso. auto. }
      rewrite Hj. split.
      * intro J. destruct (step_joining E w o v es w' HE HI Hwo H J) as [J'|J']; [auto|contradiction].
      * intros f Hf. rewrite (step_nonce E w o v es w' HE HI Hwo H D). apply B. exact Hf.
Qed.
Lemma exec_app_key E ops tr w : env_ok E -> Forall op_wf ops -> exec E world0 ops tr w -> app_key w = last_app_key tr.
Proof.
  intros HE. revert ops tr w. apply (exec_snoc_ind E (fun tr w => app_key w = last_app_key tr) HE); [reflexivity|].
  intros ops tr w o v es w' Hw Hx HI Hr A Hwo H. unfold last_app_key. rewrite fold_left_app.
  change (app_key w' = key_step (last_app_key tr) (o, v, es)). rewrite <- A.
  pose proof (C25_otaa_keys_pf E w o v es w' HE Hr Hwo H) as G. cbv zeta in G. unfold app_key.
  destruct o; cbn [key_step]; injection G as _ _ G; exact G.
Qed.

(** ** What is installed *)
Lemma ja_dec_bytes E key d : env_ok E -> bytes_ok d -> bytes_ok (ja_dec E key d).
Proof.
  intros HE Hb. unfold ja_dec, bytes_ok. rewrite Forall_app. split; [apply bytes_firstn; exact Hb|].
  generalize (skipn 1 d). induction (ja_blocks (len d)); intro l; cbn [blocks]; [constructor|].
  rewrite Forall_app. split; [apply (ok_aes_byte E HE)|apply IHn].
Qed.
Lemma installed_intro E w m v es w' rg D : env_ok E -> Inv (w_st w) -> step E w (OIrq m) = Some (v, es, w') -> op_wf (OIrq m) ->
  uw_state (stk w) = RX1 \/ uw_state (stk w) = RX2 ->
  uw_region (stk w) = Some rg -> bytes_ok D -> len D = 17 \/ len D = 33 ->
  w_st w' = end_dl (ja_state E rg D (with_frame (over D (frame (rx_s1 E w))) (rx_s1 E w))) ->
  installed E w w' (app_key w) (g24 D 1) (g24 D 4) (g32 D 7) (get D 11) (get D 12)
    (if len D =? 33 then sub D 13 16 else []) (uw_dev_nonce (stk w)).
Proof.
  intros HE HI H Hw Hst Hrg Hb Hl Hs. pose proof (step_Inv E w _ _ _ _ HE HI Hw H) as HI'.
  set (F := over D (frame (rx_s1 E w))) in *. clearbody F.
  assert (Hses : ses w' = ja_ses E D (w_st w)) by (unfold ses; rewrite Hs; reflexivity).
  assert (Hstk : stk w' = set_uw_is_join_state false (ja_stk D (set_uw_frame F (set_uw_frame (frame (rx_s1 E w)) (set_uw_state IDLE (stk w)))))).
  { unfold stk. rewrite Hs. reflexivity. }
  constructor; unfold idle, joining; rewrite ?Hses, ?Hstk.
  1, 2, 4-9: reflexivity.
  - split; reflexivity.
  - cbn [ja_stk set_uw_is_join_state default_rx1_delay set_default_rx1_delay]. unfold ja_delay.
    pose proof (Z.mod_pos_bound (get D 12) 16 ltac:(lia)).
    destruct (Z.eqb_spec (get D 12 mod 16) 0); f_equal; lia.
  - exists rg. split; [exact Hrg|]. rewrite !table_tbl by assumption.
    assert (Hch : s_ch (w_st w') = ja_ch rg D (s_ch (w_st w))) by (rewrite Hs; reflexivity). rewrite Hch.
    unfold ja_ch. destruct (Z.eqb_spec (len D) 33) as [E33|E33]; [|reflexivity].
    assert (Hlen : length (sub D 13 16) = 16%nat).
    { unfold sub. rewrite firstn_length, skipn_length. unfold len in E33. change (Z.to_nat 13) with 13%nat. change (Z.to_nat 16) with 16%nat. lia. }
    rewrite tbl_cf; [|apply HI| |unfold len; rewrite Hlen; reflexivity].
    + destruct (sub D 13 16); [discriminate|reflexivity].
    + unfold sub. apply bytes_firstn, bytes_skipn. exact Hb.
  - split; reflexivity.
  - rewrite Hs. split; [reflexivity|]. split; [reflexivity|]. split; [reflexivity|].
    exists (if ja_off D <? 6 then ja_off D else uw_rx1_offset (stk w)),
      (if ja_rx2 D <? 6 then ja_rx2 D else uw_rx2_dr (stk w)), (1000 * ja_delay D).
    destruct (stk w). reflexivity.
Qed.

Lemma ja_dec_len E key d : env_ok E -> len d = 17 \/ len d = 33 -> len (ja_dec E key d) = len d.
Proof.
  intros HE H. unfold ja_dec, len. rewrite app_length, firstn_length.
  assert (G : forall n l, length (blocks (e_aes E) key n l) = (16 * n)%nat).
  { induction n; intro l; cbn [blocks]; [reflexivity|]. rewrite app_length, IHn, (ok_aes_len E HE). lia. }
  rewrite G. unfold ja_blocks, len in *. destruct H as [H|H]; rewrite H; cbn [Z.eqb Pos.eqb]; lia.
Qed.

Lemma join_ok_case E w m v es w' : env_ok E -> reachable E w -> op_wf (OIrq m) -> receives w m -> joining w = true ->
  step E w (OIrq m) = Some (v, es, w') ->
  let d := rx_data (received E w) in
  let D := ja_dec E (app_key w) d in
  ja_valid E (app_key w) d ->
  (len d = 17 \/ len d = 33) /\ ja_clear E (app_key w) d = D /\ len D = len d /\ bytes_ok D /\
  (exists view, callbacks es = [(ERR_NO, 1, view)]) /\
  installed E w w' (app_key w) (g24 D 1) (g24 D 4) (g32 D 7) (get D 11) (get D 12)
    (if len D =? 33 then sub D 13 16 else []) (uw_dev_nonce (stk w)).
Proof.
  intros HE Hr Hw Hrx Hj H d D Hv. pose proof (reach_Inv E w HE Hr) as HI.
  assert (Hl : len d = 17 \/ len d = 33) by (destruct Hv as [Hv _]; unfold len; lia).
  assert (Hbd : bytes_ok d) by (apply (ok_pkt_byte E HE)).
  destruct (join_outcome E w m v es w' HE HI H Hrx Hj) as [r vw A B _ _ _ C D0 K|rg vw A B C D0 E' F]; [contradiction|].
  split; [exact Hl|]. split; [apply ja_clear_dec; exact Hl|].
  assert (LD : len D = len d) by (apply ja_dec_len; assumption). split; [exact LD|].
  assert (Hb : bytes_ok D) by (apply ja_dec_bytes; assumption). split; [exact Hb|].
  split; [exists vw; exact C|]. destruct Hrx as [Hst _].
  apply (installed_intro E w m v es w' rg D); try assumption. rewrite LD. exact Hl.
Qed.

(** ** CFList entry by entry *)
Definition cf_entry (f : Z) (e : Z * bool) : Z * bool :=
  if f =? 0 then (fst e, false) else if legal_freq f then (f, true) else e.
Lemma upd_nth {A} (n i : nat) (x d : A) : forall l, (n < length l)%nat -> nth i (upd n x l) d = if (i =? n)%nat then x else nth i l d.
Proof.
  revert i. induction n; intros i l Hn; destruct l as [|a l]; cbn [length] in Hn; try lia; destruct i; try reflexivity.
  cbn [upd nth]. rewrite IHn by lia. reflexivity.
Qed.
Lemma cf_put_nth n i f t : (n < length t)%nat ->
  nth i (cf_put n f t) (0, false) = if (i =? n)%nat then cf_entry f (nth i t (0, false)) else nth i t (0, false).
Proof.
  intro Hn. unfold cf_put, cf_entry. destruct (f =? 0).
  - rewrite upd_nth by exact Hn. destruct (Nat.eqb_spec i n); [subst; reflexivity|reflexivity].
  - destruct (legal_freq f); [apply upd_nth; exact Hn|]. destruct (Nat.eqb_spec i n); [subst|]; reflexivity.
Qed.
Lemma cf_put_length n f t : length (cf_put n f t) = length t.
Proof. unfold cf_put. destruct (f =? 0); [apply upd_length|]. destruct (legal_freq f); [apply upd_length|reflexivity]. Qed.
Lemma cf_fold_nth (g : nat -> Z) n i m : forall a t, (n + a + m <= length t)%nat ->
  nth i (fold_left (fun t k => cf_put (n + k) (g k) t) (seq a m) t) (0, false) =
  if ((n + a <=? i) && (i <? n + a + m))%nat then cf_entry (g (i - n)%nat) (nth i t (0, false)) else nth i t (0, false).
Proof.
  induction m; intros a t Hl; cbn [seq fold_left].
  - destruct (Nat.leb_spec (n + a) i); destruct (Nat.ltb_spec i (n + a + 0)); cbn [andb]; try reflexivity; lia.
  - rewrite IHm by (rewrite cf_put_length; lia). rewrite cf_put_nth by lia.
    destruct (Nat.leb_spec (n + S a) i); destruct (Nat.ltb_spec i (n + S a + m)); destruct (Nat.leb_spec (n + a) i);
      destruct (Nat.ltb_spec i (n + a + S m)); destruct (Nat.eqb_spec i (n + a)); cbn [andb]; try reflexivity; try lia.
    replace (i - n)%nat with a by lia. reflexivity.
Qed.

(** any 17- or 33-byte string is the header, the fields and four bytes *)
Lemma byte_div b k : is_byte b -> 0 < k -> (b + 256 * k) / 256 = k /\ (b + 256 * k) mod 256 = b.
Proof.
  intros Hb Hk. unfold is_byte in Hb. split.
  - symmetry. apply (Z.div_unique _ _ _ b); lia.
  - symmetry. apply (Z.mod_unique _ _ k); lia.
Qed.
Lemma le_unle n : forall l, length l = n -> bytes_ok l -> le n (unle l) = l.
Proof.
  induction n; intros l Hl Hb; destruct l as [|b l]; try discriminate; [reflexivity|].
  inversion Hb; subst. cbn [le unle]. unfold is_byte in *.
  assert (A : (b + 256 * unle l) mod 256 = b) by (symmetry; apply (Z.mod_unique _ _ (unle l)); lia).
  assert (B : (b + 256 * unle l) / 256 = unle l) by (symmetry; apply (Z.div_unique _ _ _ b); lia).
  rewrite A, B, IHn; auto.
Qed.
Lemma ja_split D : bytes_ok D -> get D 0 = 32 -> len D = 17 \/ len D = 33 ->
  D = [32] ++ join_accept_body (g24 D 1) (g24 D 4) (g32 D 7) (get D 11) (get D 12) (if len D =? 33 then sub D 13 16 else []) ++
      skipn (length D - 4) D.
Proof.
  intros Hb H0 Hl.
  destruct D as [|b0 [|b1 [|b2 [|b3 [|b4 [|b5 [|b6 [|b7 [|b8 [|b9 [|b10 [|b11 [|b12 R]]]]]]]]]]]]];
    try (exfalso; unfold len in Hl; cbn [length] in Hl; lia).
  assert (Hb' : bytes_ok (b0 :: b1 :: b2 :: b3 :: b4 :: b5 :: b6 :: b7 :: b8 :: b9 :: b10 :: b11 :: b12 :: R)) by exact Hb.
  repeat match goal with X : bytes_ok (_ :: _) |- _ => inversion X; clear X; subst end.
  repeat match goal with X : Forall is_byte (_ :: _) |- _ => inversion X; clear X; subst end.
  unfold join_accept_body.
  assert (A1 : forall a b c, is_byte a -> is_byte b -> is_byte c -> le 3 (a + 256 * b + 65536 * c) = [a; b; c]).
  { intros a b c Ha Hbb Hc. replace (a + 256 * b + 65536 * c) with (unle [a; b; c]) by (cbn [unle]; lia).
    apply le_unle; [reflexivity|]. repeat (constructor; [assumption|]). constructor. }
  assert (A2 : forall a b c e, is_byte a -> is_byte b -> is_byte c -> is_byte e ->
     le 4 (a + 256 * b + 65536 * c + 16777216 * e) = [a; b; c; e]).
  { intros a b c e Ha Hbb Hc He. replace (a + 256 * b + 65536 * c + 16777216 * e) with (unle [a; b; c; e]) by (cbn [unle]; lia).
    apply le_unle; [reflexivity|]. repeat (constructor; [assumption|]). constructor. }
  set (D := b0 :: b1 :: b2 :: b3 :: b4 :: b5 :: b6 :: b7 :: b8 :: b9 :: b10 :: b11 :: b12 :: R) in *.
  change (g24 D 1) with (b1 + 256 * b2 + 65536 * b3). change (g24 D 4) with (b4 + 256 * b5 + 65536 * b6).
  change (g32 D 7) with (b7 + 256 * b8 + 65536 * b9 + 16777216 * b10).
  change (get D 11) with b11. change (get D 12) with b12. change (get D 0) with b0 in H0. subst b0.
  rewrite !A1, A2 by assumption. unfold D at 1. cbn [app]. do 13 f_equal.
  assert (HR : len D = 13 + len R) by (unfold D, len; cbn [length]; lia).
  destruct Hl as [Hl|Hl]; rewrite Hl; cbn [Z.eqb Pos.eqb].
  - replace (length D - 4)%nat with 13%nat by (unfold len in Hl; lia). reflexivity.
  - replace (length D - 4)%nat with 29%nat by (unfold len in Hl; lia). unfold D.
    change (sub (32 :: b1 :: b2 :: b3 :: b4 :: b5 :: b6 :: b7 :: b8 :: b9 :: b10 :: b11 :: b12 :: R) 13 16) with (firstn 16 R).
    change (skipn 29 (32 :: b1 :: b2 :: b3 :: b4 :: b5 :: b6 :: b7 :: b8 :: b9 :: b10 :: b11 :: b12 :: R)) with (skipn 16 R).
    symmetry. apply firstn_skipn.
Qed.
