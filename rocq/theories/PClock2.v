(** PClock2.v -- clock synchronisation: arbitrary messages, requests and
    answers sent (proof infrastructure). *)
From Verif Require Export PClock.

(** ** Any message at all *)
Record csfr (s s' : st) : Prop := Mk_csfr {
  cf_rest : s' = on_cs (fun _ => s_cs s') s;
  cf_cb : cs_callbacks (s_cs s') = cs_callbacks (s_cs s);
  cf_req : app_time_req_pending (s_cs s') = app_time_req_pending (s_cs s);
  cf_pend : ans_pending (s_cs s') = ans_pending (s_cs s);
  cf_size : ans_buf_data_size (s_cs s') = ans_buf_data_size (s_cs s)
}.
Lemma csfr_refl s : csfr s s.
Proof. constructor; try reflexivity. destruct s; reflexivity. Qed.
Lemma csfr_trans a b c : csfr a b -> csfr b c -> csfr a c.
Proof.
  intros [A1 A2 A3 A4 A5] [B1 B2 B3 B4 B5]. constructor; try congruence.
  rewrite B1, A1. destruct a, b, c; reflexivity.
Qed.
Record csb (c : csync) : Prop := Mk_csb {
  cb_len : length (ans_buf c) = 32%nat;
  cb_bytes : bytes_ok (ans_buf c);
  cb_tok : 0 <= state_token_req c < 16
}.
Definition is_cs_ev (e : ev) : bool :=
  match e with KCorrection _ | KPeriod _ | KUnixtime _ | KResync => true | _ => false end.
Definition cs_ub (k : ub) : Prop := k = UB_shift \/ k = UB_overflow \/ k = UB_oob.

Lemma blit_bytes (l : list Z) off src : bytes_ok l -> bytes_ok src -> bytes_ok (blit l off src).
Proof.
  intros A B. unfold blit, bytes_ok. rewrite !Forall_app. repeat split; [apply bytes_firstn|exact B|apply bytes_skipn]; exact A.
Qed.
Lemma blit_length (l : list Z) off src : 0 <= off -> off + len src <= len l -> length (blit l off src) = length l.
Proof. intros. unfold blit, len in *. rewrite !app_length, firstn_length, skipn_length. lia. Qed.

Lemma wp_ans_puts U bs off h s : csb (s_cs s) -> bytes_ok bs -> 0 <= off -> off + len bs <= 32 ->
  wpu U (ans_puts off bs) h s (fun a s' es => a = off + len bs /\ es = [] /\ csfr s s' /\ csb (s_cs s')).
Proof.
  intros [B1 B2 B3] Hb Ho Hl. eapply wp_ok; [apply ans_puts_ok; assumption|].
  split; [reflexivity|]. split; [reflexivity|]. split.
  - constructor; reflexivity.
  - constructor; cbn -[blit]; [rewrite blit_length; unfold len in *; lia|apply blit_bytes; assumption|assumption].
Qed.
Lemma wp_cs_get l i h s (Q : Z -> st -> list ev -> Prop) : bytes_ok l ->
  (forall b, is_byte b -> Q b s []) -> wpu cs_ub (cs_get (Some l) i) h s Q.
Proof.
  intros Hl HQ. unfold cs_get, arr_get. destruct (peek l i) as [v|] eqn:Ei.
  - apply wp_ret. apply HQ. unfold peek in Ei. destruct (i <? 0); [discriminate|].
    apply nth_error_In in Ei. unfold bytes_ok in Hl. rewrite Forall_forall in Hl. exact (Hl v Ei).
  - apply wp_fail. right. right. reflexivity.
Qed.
Lemma wp_square n : forall m h s (Q : Z -> st -> list ev -> Prop), (forall r, Q r s []) -> wpu cs_ub (square_loop n m) h s Q.
Proof.
  induction n; intros m h s Q HQ; cbn [square_loop]; [apply wp_ret, HQ|].
  apply wp_bind. unfold int_mul. destruct (_ && _).
  - apply wp_ret. apply IHn. intro r. apply HQ.
  - apply wp_fail. right. left. reflexivity.
Qed.
Lemma wp_period id h s (Q : Z -> st -> list ev -> Prop) : (forall r, Q r s []) -> wpu cs_ub (periodicity_from_period_id id) h s Q.
Proof.
  intro HQ. unfold periodicity_from_period_id. apply wp_bind.
  assert (HK : forall m h', wpu cs_ub (r <- int_mul 128 m ;; ret (u32 r)) h' s Q).
  { intros m h'. apply wp_bind. unfold int_mul. destruct (_ && _); [|apply wp_fail; right; left; reflexivity].
    apply wp_ret, wp_ret. apply HQ. }
  destruct (id =? 0); [apply wp_ret, HK|]. apply wp_square. intro r. apply HK.
Qed.

Definition mask_bound (mask : Z) : Z := 3 * b2z (Z.testbit mask 0) + 6 * b2z (Z.testbit mask 2).

Lemma wp_cs_command E c l size cmd off aoff h s : env_ok E -> bytes_ok l -> csb (s_cs s) -> is_byte cmd ->
  0 <= off < 256 -> 0 <= aoff <= 9 - 3 * b2z (cmd =? 0) - 6 * b2z (cmd =? 2) -> 0 <= size <= 255 ->
  wpu cs_ub (cs_command E c (Some l) size cmd off aoff) h s
    (fun '(off', aoff') s' es => csfr s s' /\ csb (s_cs s') /\ Forall (fun e => is_cs_ev e = true) es /\
       0 <= off' < 256 /\ (off <= off' \/ cmd = 3) /\
       0 <= aoff' <= aoff + 3 * b2z (cmd =? 0) + 6 * b2z (cmd =? 2)).
Proof.
  intros HE Hl Hc Hcmd Ho Ha Hsz. unfold cs_command, is_byte in *.
  destruct (Z.eqb_spec cmd 0) as [C0|C0].
  { replace (cmd =? 2) with false in * by lia. cbn [b2z] in *.
    apply wp_bind. eapply wp_conseq; [apply wp_ans_puts; [exact Hc|repeat constructor; unfold is_byte; lia|lia|change (len [0; 1; 1]) with 3; lia]|].
    intros a s' es (-> & -> & F & B). apply wp_ret. cbn [app]. change (len [0; 1; 1]) with 3.
    split; [exact F|]. split; [exact B|]. split; [constructor|]. lia. }
  destruct (Z.eqb_spec cmd 1) as [C1|C1].
  { replace (cmd =? 2) with false in * by lia. cbn [b2z] in *.
    destruct (Z.ltb_spec (size - off) 5).
    { apply wp_ret. split; [apply csfr_refl|]. split; [exact Hc|]. split; [constructor|]. lia. }
    assert (Hw : forall k, 0 <= k < 5 -> u8 (off + k + 1) = off + k + 1) by (intros; apply u8_id; lia).
    pose proof (Hw 0 ltac:(lia)) as W0. pose proof (Hw 1 ltac:(lia)) as W1. pose proof (Hw 2 ltac:(lia)) as W2.
    pose proof (Hw 3 ltac:(lia)) as W3. pose proof (Hw 4 ltac:(lia)) as W4.
    rewrite Z.add_0_r in W0. cbv zeta. rewrite W0.
    replace (u8 (off + 1 + 1)) with (off + 2) by lia. replace (u8 (off + 2 + 1)) with (off + 3) by lia.
    replace (u8 (off + 3 + 1)) with (off + 4) by lia.
    do 4 (apply wp_bind; apply wp_cs_get; [exact Hl|]; intros ? ?).
    apply wp_bind. unfold shl24. destruct (e_strict_shl E && (128 <=? b2)); [apply wp_fail; left; reflexivity|].
    apply wp_ret. apply wp_bind. apply wp_cs_get; [exact Hl|]; intros b4 Hb4.
    apply wp_bind, wp_gets. apply wp_bind.
    destruct (_ =? _).
    - apply wp_bind, wp_emit, wp_modify. apply wp_ret. cbn [app].
      split; [constructor; reflexivity|]. split.
      { destruct Hc. constructor; cbn -[Z.land]; try assumption. rewrite land_15. apply Z.mod_pos_bound. lia. }
      split; [repeat constructor|]. pose proof (u8_range (off + 4 + 1)). lia.
    - apply wp_ret, wp_ret. cbn [app]. split; [apply csfr_refl|]. split; [exact Hc|]. split; [constructor|].
      pose proof (u8_range (off + 4 + 1)). lia. }
  destruct (Z.eqb_spec cmd 2) as [C2|C2].
  { cbn [b2z] in *. destruct (Z.ltb_spec (size - off) 1).
    { apply wp_ret. split; [apply csfr_refl|]. split; [exact Hc|]. split; [constructor|]. lia. }
    apply wp_bind. apply wp_cs_get; [exact Hl|]. intros id Hid. cbv zeta.
    rewrite u8_id by lia.
    apply wp_bind. eapply wp_conseq; [apply wp_ans_puts; [exact Hc|repeat constructor; unfold is_byte; lia|lia|change (len [2]) with 1; lia]|].
    intros a1 s1 e1 (-> & -> & F1 & B1). change (len [2]) with 1.
    apply wp_bind.
    apply (wp_conseq _ _ _ _ (fun a s' es => a = aoff + 2 /\ csfr s1 s' /\ csb (s_cs s') /\ Forall (fun e => is_cs_ev e = true) es)).
    { destruct (has_periodicity c).
      - apply wp_bind, wp_period. intro r. apply wp_bind, wp_emit.
        eapply wp_conseq; [apply wp_ans_puts; [exact B1|repeat constructor; unfold is_byte; lia|lia|change (len [0]) with 1; lia]|].
        intros a s' es (-> & -> & F & B). change (len [0]) with 1. cbn [app]. split; [lia|]. split; [exact F|]. split; [exact B|repeat constructor].
      - eapply wp_conseq; [apply wp_ans_puts; [exact B1|repeat constructor; unfold is_byte; lia|lia|change (len [1]) with 1; lia]|].
        intros a s' es (-> & -> & F & B). change (len [1]) with 1. split; [lia|]. split; [exact F|]. split; [exact B|repeat constructor]. }
    intros a2 s2 e2 (-> & F2 & B2 & E2). apply wp_bind, wp_query. apply wp_bind.
    eapply wp_conseq; [apply wp_ans_puts; [exact B2| |lia|change (len (time_bytes _)) with 4; lia]|].
    { unfold time_bytes. repeat constructor; apply u8_range. }
    intros a3 s3 e3 (-> & -> & F3 & B3). apply wp_ret.
    split; [eapply csfr_trans; [exact F1|eapply csfr_trans; eassumption]|]. split; [exact B3|]. split.
    { cbn [app]. rewrite ?Forall_app. repeat split; try exact E2; repeat constructor. }
    match goal with |- context [len (time_bytes ?x)] => change (len (time_bytes x)) with 4 end.
    lia. }
  cbn [b2z] in *. destruct (Z.eqb_spec cmd 3) as [C3|C3].
  { apply wp_bind. apply wp_cs_get; [exact Hl|]. intros b Hb. cbv zeta. apply wp_bind, wp_modify.
    apply wp_bind, wp_gets. apply wp_bind.
    pose proof (u8_range (off + 1)).
    destruct (negb _); [apply wp_emit|apply wp_ret]; apply wp_ret; cbn [app];
      (split; [constructor; reflexivity|]); (split; [destruct Hc; constructor; assumption|]);
      (split; [repeat constructor|]); lia. }
  apply wp_ret. split; [apply csfr_refl|]. split; [exact Hc|]. split; [constructor|]. lia.
Qed.

Lemma wp_cs_loop E c l size : env_ok E -> bytes_ok l -> 0 <= size <= 255 ->
  forall fuel off aoff mask h s, csb (s_cs s) -> is_byte mask -> 0 <= off < 256 ->
  0 <= aoff <= mask_bound mask ->
  (if Z.testbit mask 3 then 0 else 256) + (256 - off) <= Z.of_nat fuel ->
  wpu cs_ub (cs_loop E fuel c (Some l) size off aoff mask) h s
    (fun a s' es => 0 <= a <= 9 /\ csfr s s' /\ csb (s_cs s') /\ Forall (fun e => is_cs_ev e = true) es).
Proof.
  intros HE Hl Hsz.
  assert (Hmb : forall m, mask_bound m <= 9).
  { intro m. unfold mask_bound. destruct (Z.testbit m 0), (Z.testbit m 2); cbn; lia. }
  induction fuel as [|fuel IH]; intros off aoff mask h s Hc Hm Ho Ha Hf; cbn [cs_loop].
  all: pose proof (Hmb mask) as H9.
  - destruct (Z.ltb_spec off size).
    + destruct (Z.testbit mask 3); lia.
    + apply wp_ret. split; [lia|]. split; [apply csfr_refl|]. split; [exact Hc|constructor].
  - destruct (Z.ltb_spec off size) as [Hlt|Hlt].
    2: { apply wp_ret. split; [lia|]. split; [apply csfr_refl|]. split; [exact Hc|constructor]. }
    apply wp_bind. apply wp_cs_get; [exact Hl|]. intros cmd Hcmd. cbv zeta.
    apply wp_bind. unfold cmd_bit. destruct (Z.leb_spec 32 cmd) as [H32|H32]; [apply wp_fail; left; reflexivity|].
    destruct (e_strict_shl E && (cmd =? 31)); [apply wp_fail; left; reflexivity|]. apply wp_ret.
    unfold is_byte in Hcmd.
    assert (Hbit : u8 (Z.shiftl 1 cmd) = if cmd <? 8 then Z.shiftl 1 cmd else 0).
    { unfold u8. rewrite Z.shiftl_1_l. destruct (Z.ltb_spec cmd 8).
      - apply Z.mod_small. split; [apply Z.pow_nonneg; lia|]. change 256 with (2 ^ 8). apply Z.pow_lt_mono_r; lia.
      - replace cmd with ((cmd - 8) + 8) by lia. rewrite Z.pow_add_r by lia. apply Z.mod_mul. lia. }
    destruct (negb (Z.land mask (u8 (Z.shiftl 1 cmd)) =? 0)) eqn:Eseen.
    { apply wp_ret. split; [lia|]. split; [apply csfr_refl|]. split; [exact Hc|constructor]. }
    set (mask' := u8 (Z.lor mask (u8 (Z.shiftl 1 cmd)))).
    assert (Hbits : forall j, 0 <= j < 8 -> Z.testbit mask' j = Z.testbit mask j || (j =? cmd)).
    { intros j Hj. unfold mask'. rewrite u8_testbit by lia. rewrite Z.lor_spec, Hbit. f_equal.
      destruct (Z.ltb_spec cmd 8); [apply shiftl1_testbit; lia|]. rewrite Z.bits_0. lia. }
    assert (Hnew : cmd < 8 -> Z.testbit mask cmd = false).
    { intro H8. rewrite Hbit in Eseen. replace (cmd <? 8) with true in Eseen by lia.
      rewrite land_bit in Eseen by lia. exact Eseen. }
    assert (Hmb' : mask_bound mask' = mask_bound mask + 3 * b2z (cmd =? 0) + 6 * b2z (cmd =? 2)).
    { unfold mask_bound. rewrite !Hbits by lia.
      destruct (Z.eqb_spec cmd 0) as [->|N0]; [rewrite Hnew by lia; destruct (Z.testbit mask 2); reflexivity|].
      destruct (Z.eqb_spec cmd 2) as [->|N2]; [rewrite Hnew by lia; destruct (Z.testbit mask 0); reflexivity|].
      replace (0 =? cmd) with false by lia. replace (2 =? cmd) with false by lia.
      rewrite !orb_false_r. cbn [b2z]. lia. }
    pose proof (Hmb mask') as H9'.
    apply wp_bind.
    assert (Hu : u8 (off + 1) = off + 1) by (apply u8_id; lia). rewrite Hu.
    eapply wp_conseq; [apply wp_cs_command; [exact HE|exact Hl|exact Hc|exact Hcmd|lia|lia|exact Hsz]|].
    intros [off' aoff'] s' es (F & B & Ev & O1 & O2 & A). cbn [app].
    eapply wp_conseq; [apply IH|].
    + exact B.
    + apply u8_range.
    + exact O1.
    + lia.
    + rewrite Hbits by lia. destruct (Z.eqb_spec 3 cmd) as [<-|N3].
      * rewrite Hnew in Hf by lia. rewrite orb_true_r. lia.
      * rewrite orb_false_r. destruct O2 as [O2|O2]; [|congruence]. lia.
    + intros a s'' es' (R1 & R2 & R3 & R4). split; [exact R1|]. split; [eapply csfr_trans; eassumption|].
      split; [exact R3|]. cbn [app]. apply Forall_app. split; [exact Ev|exact R4].
Qed.

Lemma csfr_Inv s s' a p : Inv s -> csfr s s' -> csb (s_cs s') -> 0 <= a <= 9 ->
  (p = true -> 0 < a /\ cs_callbacks (s_cs s) <> None) ->
  Inv (on_cs (fun c => set_ans_pending p (set_ans_buf_data_size a c)) s').
Proof.
  intros HI [F1 F2 F3 F4 F5] [B1 B2 B3] Ha Hp. rewrite F1. destruct HI as [I1 I2 I3 I4 I5 I6].
  constructor; cbn; try assumption. constructor; cbn; try assumption.
  intro Hpt. rewrite F2. auto.
Qed.

Definition cs_cleared (s : st) : st :=
  on_cs (fun c => set_ans_pending false (set_app_time_req_pending false c)) s.
Lemma cs_cleared_Inv s : Inv s -> Inv (cs_cleared s).
Proof.
  intros [I1 I2 I3 I4 I5 I6]. constructor; cbn; try assumption.
  destruct I6. constructor; cbn; try assumption. discriminate.
Qed.

(** any message, any error code, any port *)
Lemma wp_cs_handle E e buf size port h s : env_ok E -> Inv s ->
  op_wf (OCsHandle e buf size port) ->
  wpu cs_ub (uwan_clock_sync_handle_time_answ E e buf size port) h s
    (fun _ s' es => Inv s' /\ s' = on_cs (fun _ => s_cs s') s /\ cs_callbacks (s_cs s') = cs_callbacks (s_cs s) /\
       Forall (fun x => is_cs_ev x = true) es).
Proof.
  intros HE HI (Hsz & Hpt & Hbuf). unfold uwan_clock_sync_handle_time_answ.
  assert (Hrefl : forall t : st, t = on_cs (fun _ => s_cs t) t) by (intros []; reflexivity).
  destruct (negb (is_ERR_NO e)).
  { apply wp_ret. split; [assumption|]. split; [apply Hrefl|]. split; [reflexivity|constructor]. }
  apply wp_bind, wp_modify. apply wp_bind, wp_modify.
  change (on_cs (set_ans_pending false) (on_cs (set_app_time_req_pending false) s)) with (cs_cleared s).
  pose proof (cs_cleared_Inv s HI) as HI'.
  destruct (negb (size =? 0) && (port =? CS_PORT)) eqn:Ec.
  2: { apply wp_ret. cbn [app]. split; [assumption|]. split; [reflexivity|]. split; [reflexivity|constructor]. }
  apply andb_true_iff in Ec. destruct Ec as [Ez _]. destruct (Z.eqb_spec size 0) as [|Hz]; [discriminate|].
  destruct buf as [l|]; [|lia]. destruct Hbuf as [Hl Hsl].
  unfold handle_answ. apply wp_bind, wp_gets.
  destruct (cs_callbacks (s_cs (cs_cleared s))) as [c|] eqn:Ecb.
  2: { apply wp_ret. cbn [app]. split; [assumption|]. split; [reflexivity|]. split; [reflexivity|constructor]. }
  apply wp_bind.
  assert (Hcb : csb (s_cs (cs_cleared s))) by (destruct (iv_cs _ HI); constructor; assumption).
  unfold is_u8 in Hsz.
  eapply wp_conseq; [apply (wp_cs_loop E c l size HE Hl ltac:(lia) 600 0 0 0 _ (cs_cleared s) Hcb)|].
  - unfold is_byte. lia.
  - lia.
  - cbn. lia.
  - cbn. lia.
  - intros a s' es (A & F & B & Ev). apply wp_bind, wp_modify. apply wp_modify. cbn [app].
    rewrite ?app_nil_r. split; [|split; [|split]].
    + apply (csfr_Inv (cs_cleared s) s' a (negb (a =? 0)) HI' F B A).
      intro Hn. split; [|congruence]. destruct (Z.eqb_spec a 0); [discriminate|lia].
    + destruct F as [F1 _ _ _ _]. destruct s, s'. cbn in *. injection F1 as -> -> -> -> ->. reflexivity.
    + destruct F as [_ F2 _ _ _]. exact F2.
    + exact Ev.
Qed.

(** a message the parser of the specification accepts *)
Definition cs_done (s : st) (a : cs_acc) : st :=
  on_cs (fun c => set_ans_pending (negb (len (ca_ans a) =? 0)) (set_ans_buf_data_size (len (ca_ans a))
    (cs_with (over (ca_ans a) (ans_buf c)) (ca_tok a) (ca_rep a) c))) (cs_cleared s).
Definition cs_start (s : st) : cs_acc :=
  Mk_cs_acc [] [] (state_token_req (s_cs s)) (force_resync_nb_of_rep (s_cs s)).

Lemma cs_handle_ok E c msg post reqs h s : env_ok E -> e_strict_shl E = false -> Inv s ->
  cs_callbacks (s_cs s) = Some c -> bytes_ok msg -> 0 < len msg <= 255 ->
  cs_parse [] msg = Some reqs -> Forall (period_safe c) reqs ->
  uwan_clock_sync_handle_time_answ E ERR_NO (Some (msg ++ post)) (len msg) CS_PORT h s =
    let a := cs_run E c h reqs (cs_start s) in Ok (tt, cs_done s a, ca_evs a).
Proof.
  intros HE Hns HI Hc Hm Hl Hp Hs. unfold uwan_clock_sync_handle_time_answ. cbn [is_ERR_NO negb].
  msteps.
  change (on_cs (set_ans_pending false) (on_cs (set_app_time_req_pending false) s)) with (cs_cleared s).
  replace (len msg =? 0) with false by lia. cbn [negb]. rewrite Z.eqb_refl. cbn [andb].
  unfold handle_answ. msteps. change (cs_callbacks (s_cs (cs_cleared s))) with (cs_callbacks (s_cs s)). rewrite Hc.
  destruct (iv_cs _ HI) as [X1 X2 X3 X4 X5].
  destruct (cs_loop_ok E c (ans_buf (s_cs s)) (cs_cleared s) h post HE Hns X1 (length msg) msg 600 [] 0 [] reqs (cs_start s))
    as (es & E1 & E2 & E3); try assumption; try lia.
  - unfold len in Hl. lia.
  - change (len []) with 0. lia.
  - split; [unfold is_byte; lia|]. split; [intros; apply Z.bits_0|intros ? []].
  - change (len (ca_ans (cs_start s))) with 0. cbn. lia.
  - change (ca_evs (cs_start s)) with (@nil ev) in E1, E3. rewrite app_nil_r in E3. cbn [app] in E1. subst es.
    change (len []) with 0 in E3. rewrite !Z.add_0_l in E3. cbn [app] in E3.
    assert (Hst : cs_state (ans_buf (s_cs s)) (cs_start s) (cs_cleared s) = cs_cleared s).
    { unfold cs_state, cs_start. cbn [ca_ans ca_tok ca_rep]. rewrite over_nil. destruct s as [? ? ? ? ? []]. reflexivity. }
    rewrite Hst in E3. change (len (ca_ans (cs_start s))) with 0 in E3.
    erewrite bind_ok; [|exact E3]. msteps. unfold mod_cs, modify, addev.
    rewrite app_nil_r. cbv zeta. reflexivity.
Qed.

(** ** Sending *)
Lemma bind_ext {S E A B} (m m' : M S E A) (f f' : A -> M S E B) h s :
  m h s = m' h s -> (forall a h' s', f a h' s' = f' a h' s') -> bind m f h s = bind m' f' h s.
Proof.
  intros H1 H2. unfold bind. rewrite H1. destruct (m' h s) as [[[a s1] e1]|]; [|reflexivity]. rewrite H2. reflexivity.
Qed.
Lemma memcpy_firstn l off src n (h : list ev) (s : st) : 0 <= n -> n <= len src ->
  arr_memcpy l off src n h s = arr_memcpy l off (firstn (Z.to_nat n) src) n h s.
Proof.
  intros Hn Hl. unfold arr_memcpy. unfold len in *. rewrite firstn_firstn, Nat.min_id, firstn_length.
  replace (n <=? Z.of_nat (Nat.min (Z.to_nat n) (length src))) with true by lia.
  replace (n <=? Z.of_nat (length src)) with true by lia. reflexivity.
Qed.
Lemma send_firstn E port src n confirm h s : 0 <= n -> n <= len src ->
  uwan_send_frame E port src n confirm h s = uwan_send_frame E port (firstn (Z.to_nat n) src) n confirm h s.
Proof.
  intros Hn Hl. unfold uwan_send_frame.
  repeat first
    [ match goal with
      | |- ?x = ?x => reflexivity
      | |- frame_memcpy ?o src n _ _ = _ =>
          unfold frame_memcpy; apply bind_ext; [reflexivity|intros];
          apply bind_ext; [apply memcpy_firstn; assumption|intros; reflexivity]
      | |- (if ?b then _ else _) _ _ = _ => destruct b
      | |- (match ?x with _ => _ end) _ _ = _ => destruct x
      end
    | apply bind_ext; [|intros; cbv zeta] ].
Qed.

Definition cs_req_payload (E : env) (ans_required : bool) (h : list ev) (s : st) : list Z :=
  (if ans_pending (s_cs s) then firstn (Z.to_nat (ans_buf_data_size (s_cs s))) (ans_buf (s_cs s)) else []) ++
  [1] ++ le 4 (gps_of_unix (e_unixtime E h)) ++
  [state_token_req (s_cs s) + 16 * b2z ans_required].
Definition cs_req_st (s : st) : st := on_cs (set_app_time_req_pending true) s.

Lemma rq_puts_ok bs : forall rq h (s : st), len rq + len bs <= 32 -> rq_puts rq bs h s = Ok (rq ++ bs, s, []).
Proof.
  induction bs as [|b bs IH]; intros rq h s H; cbn [rq_puts].
  - rewrite app_nil_r. reflexivity.
  - rewrite len_cons in H. pose proof (len_nonneg bs). replace (len rq <? 32) with true by lia.
    rewrite IH by (rewrite len_snoc; lia). rewrite <- app_assoc. reflexivity.
Qed.

Lemma cs_req_payload_ok E a h s : env_ok E -> Inv s ->
  bytes_ok (cs_req_payload E a h s) /\ len (cs_req_payload E a h s) <= 15.
Proof.
  intros HE HI. destruct (iv_cs _ HI) as [X1 X2 X3 X4 X5]. unfold cs_req_payload. split.
  - rewrite !bytes_app. split; [destruct (ans_pending _); [apply bytes_firstn; exact X2|constructor]|].
    split; [repeat constructor; unfold is_byte; lia|]. split; [apply le_bytes|].
    repeat constructor; unfold is_byte; destruct a; cbn; lia.
  - rewrite !len_app. change (len [1]) with 1. unfold len. rewrite le_length. cbn [length].
    destruct (ans_pending _); [rewrite firstn_length|cbn [length]]; lia.
Qed.
Lemma cs_req_Inv s : Inv s -> Inv (cs_req_st s).
Proof.
  intros [I1 I2 I3 I4 I5 I6]. constructor; cbn; try assumption. destruct I6. constructor; cbn; assumption.
Qed.

Lemma cs_send_req_ok E a h s : env_ok E -> Inv s -> cs_callbacks (s_cs s) <> None ->
  uwan_clock_sync_send_time_req E a h s =
    addev [KUnixtime (e_unixtime E h)]
      (uwan_send_frame E CS_PORT (cs_req_payload E a h s) (len (cs_req_payload E a h s)) false
         (h ++ [KUnixtime (e_unixtime E h)]) (cs_req_st s)).
Proof.
  intros HE HI Hc. destruct (iv_cs _ HI) as [X1 X2 X3 X4 X5]. unfold uwan_clock_sync_send_time_req. msteps.
  destruct (cs_callbacks (s_cs s)) as [c|]; [|congruence]. msteps.
  set (rq := if ans_pending (s_cs s) then firstn (Z.to_nat (ans_buf_data_size (s_cs s))) (ans_buf (s_cs s)) else []).
  assert (Hrq : len rq <= 9).
  { unfold rq, len. destruct (ans_pending _); [rewrite firstn_length|cbn [length]]; lia. }
  bstep ltac:(instantiate (1 := s); instantiate (1 := rq); unfold rq; destruct (ans_pending (s_cs s)); [|reflexivity];
    replace ((ans_buf_data_size (s_cs s) <=? 32) && (ans_buf_data_size (s_cs s) <=? len (ans_buf (s_cs s)))) with true
      by (unfold len; lia); reflexivity).
  msteps. replace (32 - len rq <? 6) with false by lia. msteps.
  assert (Htr : 0 <= gps_of_unix (e_unixtime E h) < 4294967296) by (apply Z.mod_pos_bound; lia).
  rewrite gps_spec, time_bytes_spec by exact Htr.
  change (state_token_req (s_cs (on_cs (set_app_time_req_pending true) s))) with (state_token_req (s_cs s)).
  assert (Hlast : u8 (Z.lor (state_token_req (s_cs s)) (Z.shiftl (b2z a) 4)) = state_token_req (s_cs s) + 16 * b2z a).
  { rewrite lor_shiftl_add by (change (2 ^ 4) with 16; lia). change (2 ^ 4) with 16. rewrite u8_id; destruct a; cbn; lia. }
  rewrite Hlast.
  bstep ltac:(apply rq_puts_ok; rewrite !len_app; unfold len at 2 3 4; rewrite le_length; cbn [length]; lia).
  reflexivity.
Qed.

Definition cs_answer (s : st) : list Z := firstn (Z.to_nat (ans_buf_data_size (s_cs s))) (ans_buf (s_cs s)).
Lemma cs_answer_ok s : Inv s -> bytes_ok (cs_answer s) /\ len (cs_answer s) = ans_buf_data_size (s_cs s).
Proof.
  intro HI. destruct (iv_cs _ HI) as [X1 X2 X3 X4 X5]. unfold cs_answer. split; [apply bytes_firstn; exact X2|].
  unfold len. rewrite firstn_length. lia.
Qed.
Lemma cs_send_ans_ok E h s : Inv s -> ans_pending (s_cs s) = true ->
  uwan_clock_sync_send_answ E h s = uwan_send_frame E CS_PORT (cs_answer s) (len (cs_answer s)) false h s.
Proof.
  intros HI Hp. destruct (cs_answer_ok s HI) as [_ Hl]. destruct (iv_cs _ HI) as [X1 X2 X3 X4 X5].
  unfold uwan_clock_sync_send_answ. msteps. rewrite Hp. cbn [negb]. msteps. rewrite Hl.
  apply send_firstn; unfold len; lia.
Qed.
