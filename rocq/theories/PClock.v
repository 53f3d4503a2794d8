(** PClock.v -- the clock synchronisation extension (proof infrastructure). *)
From Verif Require Export PIrq ClockSync Api.

(** ** Answers *)
Definition with_ans (a : list Z) (s : st) : st := on_cs (set_ans_buf a) s.
Lemma ans_puts_ok bs : forall off h s, length (ans_buf (s_cs s)) = 32%nat -> 0 <= off -> off + len bs <= 32 ->
  ans_puts off bs h s = Ok (off + len bs, with_ans (blit (ans_buf (s_cs s)) off bs) s, []).
Proof.
  induction bs as [|b bs IH]; intros off h s Hl Ho Hb; cbn [ans_puts].
  - rewrite blit_nil. change (len []) with 0. rewrite Z.add_0_r. unfold ret, with_ans.
    destruct s as [a b c d e []]. reflexivity.
  - assert (Hlen : len (b :: bs) = 1 + len bs) by (unfold len; cbn [length]; lia).
    pose proof (Zle_0_nat (length bs)) as Hn. fold (len bs) in Hn.
    msteps. bstep ltac:(apply arr_set_ok; unfold len in *; lia). msteps.
    rewrite u8_id by lia. rewrite IH.
    + cbn [s_cs on_cs set_ans_buf ans_buf with_ans]. rewrite Hlen.
      rewrite blit_cons by (unfold len in *; lia).
      replace (off + 1 + len bs) with (off + (1 + len bs)) by lia. reflexivity.
    + cbn [s_cs on_cs set_ans_buf ans_buf]. rewrite upd_length. exact Hl.
    + lia.
    + lia.
Qed.

(** ** What executing parsed requests does *)
Definition period_code (id : Z) : Z := 128 * (if id =? 0 then 1 else 2 ^ (2 ^ (id - 1))).
Record cs_acc := Mk_cs_acc { ca_ans : list Z; ca_evs : list ev; ca_tok : Z; ca_rep : Z }.
Definition cs_do (E : env) (c : cs_cbs) (h : list ev) (q : cs_req) (a : cs_acc) : cs_acc :=
  match q with
  | QVersion => Mk_cs_acc (ca_ans a ++ [0; 1; 1]) (ca_evs a) (ca_tok a) (ca_rep a)
  | QAnswer corr tok =>
      if tok =? ca_tok a then Mk_cs_acc (ca_ans a) (ca_evs a ++ [KCorrection corr]) ((ca_tok a + 1) mod 16) (ca_rep a)
      else a
  | QPeriod id =>
      let e1 := if has_periodicity c then ca_evs a ++ [KPeriod (period_code id)] else ca_evs a in
      let t := e_unixtime E (h ++ e1) in
      Mk_cs_acc (ca_ans a ++ [2; if has_periodicity c then 0 else 1] ++ le 4 (gps_of_unix t))
        (e1 ++ [KUnixtime t]) (ca_tok a) (ca_rep a)
  | QResync n => Mk_cs_acc (ca_ans a) (if n =? 0 then ca_evs a else ca_evs a ++ [KResync]) (ca_tok a) n
  end.
Fixpoint cs_run (E : env) (c : cs_cbs) (h : list ev) (qs : list cs_req) (a : cs_acc) : cs_acc :=
  match qs with [] => a | q :: qs' => cs_run E c h qs' (cs_do E c h q a) end.

Definition period_safe (c : cs_cbs) (q : cs_req) : Prop :=
  match q with QPeriod id => has_periodicity c = true -> id <= 5 | _ => True end.

Definition cs_with (ans : list Z) (tok rep : Z) (c : csync) : csync :=
  set_force_resync_nb_of_rep rep (set_state_token_req tok (set_ans_buf ans c)).

Lemma int_mul_ok a b h s : - INT_MAX - 1 <= a * b <= INT_MAX -> int_mul a b h s = Ok (a * b, s, []).
Proof.
  intro H. unfold int_mul. replace ((a * b <=? INT_MAX) && (- INT_MAX - 1 <=? a * b)) with true by lia. reflexivity.
Qed.
Lemma period_ok id h s : 0 <= id <= 5 -> periodicity_from_period_id id h s = Ok (period_code id, s, []).
Proof.
  intro H. assert (Hc : id = 0 \/ id = 1 \/ id = 2 \/ id = 3 \/ id = 4 \/ id = 5) by lia.
  destruct Hc as [->|[->|[->|[->|[->| ->]]]]]; reflexivity.
Qed.
Lemma gps_spec t : utils_unix_to_gps t = gps_of_unix t.
Proof. unfold utils_unix_to_gps, gps_of_unix, u32. rewrite Zplus_mod_idemp_l. reflexivity. Qed.
Lemma time_bytes_spec t : 0 <= t < 4294967296 -> time_bytes t = le 4 t.
Proof.
  intro H. unfold time_bytes, u8. cbn [le]. rewrite !Z.shiftr_div_pow2 by lia.
  change (2 ^ 8) with 256. change (2 ^ 16) with 65536. change (2 ^ 24) with 16777216.
  rewrite !Z.div_div by lia. reflexivity.
Qed.
Lemma s32_spec v : 0 <= v < 4294967296 -> s32 v = signed32 v.
Proof.
  intro H. unfold s32, signed32. cbv zeta. rewrite Z.mod_small by lia. reflexivity.
Qed.

(** the bits of exec_cmd_mask and the list of the specification *)
Definition seen_ok (mask : Z) (seen : list Z) : Prop :=
  is_byte mask /\ (forall c, 0 <= c < 8 -> Z.testbit mask c = existsb (Z.eqb c) seen) /\
  (forall c, In c seen -> 0 <= c < 8).

Lemma cmd_bit_ok E c h s : e_strict_shl E = false -> 0 <= c < 32 ->
  cmd_bit E c h s = Ok ((if c <? 8 then 2 ^ c else 0), s, []).
Proof.
  intros Hns Hc. unfold cmd_bit. replace (32 <=? c) with false by lia. rewrite Hns. cbn [andb].
  unfold ret. rewrite Z.shiftl_1_l. do 3 f_equal. unfold u8.
  destruct (Z.ltb_spec c 8).
  - apply Z.mod_small. split; [apply Z.pow_nonneg; lia|]. change 256 with (2 ^ 8). apply Z.pow_lt_mono_r; lia.
  - replace c with ((c - 8) + 8) by lia. rewrite Z.pow_add_r by lia. apply Z.mod_mul. lia.
Qed.
Lemma seen_land mask seen c : seen_ok mask seen -> 0 <= c < 32 ->
  negb (Z.land mask (if c <? 8 then 2 ^ c else 0) =? 0) = existsb (Z.eqb c) seen.
Proof.
  intros (Hb & H1 & H2) Hc. destruct (Z.ltb_spec c 8).
  - rewrite <- Z.shiftl_1_l, land_bit by lia. apply H1. lia.
  - rewrite Z.land_0_r. cbn. destruct (existsb (Z.eqb c) seen) eqn:Ex; [|reflexivity].
    apply existsb_exists in Ex. destruct Ex as (x & Hx & Hq). apply Z.eqb_eq in Hq. subst x.
    apply H2 in Hx. lia.
Qed.
Lemma seen_add mask seen c : seen_ok mask seen -> 0 <= c < 32 ->
  seen_ok (u8 (Z.lor mask (if c <? 8 then 2 ^ c else 0))) (if c <? 8 then c :: seen else seen).
Proof.
  intros (Hb & H1 & H2) Hc. split; [apply u8_range|]. destruct (Z.ltb_spec c 8).
  - split.
    + intros j Hj. rewrite <- Z.shiftl_1_l. rewrite u8_testbit, Z.lor_spec, shiftl1_testbit by lia.
      cbn [existsb]. rewrite H1 by assumption. apply orb_comm.
    + intros x [->|Hx]; [lia|auto].
  - rewrite Z.lor_0_r, u8_id by exact Hb. auto.
Qed.

Lemma cs_get_app pre b post h s : cs_get (Some (pre ++ b :: post)) (len pre) h s = Ok (b, s, []).
Proof.
  unfold cs_get. pose proof (Zle_0_nat (length pre)). rewrite arr_get_ok.
  - rewrite get_app_mid. reflexivity.
  - unfold len. rewrite app_length. cbn [length]. lia.
Qed.
Lemma app_cons_assoc (pre : list Z) b post : pre ++ b :: post = (pre ++ [b]) ++ post.
Proof. rewrite <- app_assoc. reflexivity. Qed.
Lemma len_snoc (pre : list Z) b : len (pre ++ [b]) = len pre + 1.
Proof. unfold len. rewrite app_length. cbn [length]. lia. Qed.

Definition cs_bound (seen : list Z) : Z :=
  3 * b2z (existsb (Z.eqb 0) seen) + 6 * b2z (existsb (Z.eqb 2) seen).
Definition cs_state (A0 : list Z) (a : cs_acc) (s0 : st) : st :=
  on_cs (cs_with (over (ca_ans a) A0) (ca_tok a) (ca_rep a)) s0.

Lemma ans_acc_ok A0 a s0 bs h : length A0 = 32%nat -> len (ca_ans a) + len bs <= 32 ->
  ans_puts (len (ca_ans a)) bs h (cs_state A0 a s0) =
    Ok (len (ca_ans a ++ bs), cs_state A0 (Mk_cs_acc (ca_ans a ++ bs) (ca_evs a) (ca_tok a) (ca_rep a)) s0, []).
Proof.
  intros HA Hb. pose proof (Zle_0_nat (length (ca_ans a))). pose proof (Zle_0_nat (length bs)).
  rewrite ans_puts_ok; cycle 1.
  - cbn -[over]. rewrite over_len; unfold len in *; lia.
  - unfold len. lia.
  - exact Hb.
  - cbn [cs_state on_cs s_cs cs_with set_force_resync_nb_of_rep set_state_token_req set_ans_buf ans_buf].
    rewrite blit_over by (unfold len in *; lia). unfold len. rewrite app_length, Nat2Z.inj_add. reflexivity.
Qed.

Lemma unle4_byte b0 b1 b2 b3 : is_byte b0 -> is_byte b1 -> is_byte b2 -> is_byte b3 ->
  unle [b0; b1; b2; b3] = b0 + 256 * b1 + 65536 * b2 + 16777216 * b3 /\ 0 <= unle [b0; b1; b2; b3] < 4294967296.
Proof. unfold is_byte. intros. cbn [unle]. lia. Qed.

Lemma cs_loop_ok E c A0 s0 h0 post : env_ok E -> e_strict_shl E = false -> length A0 = 32%nat ->
  forall n msg fuel pre mask seen reqs a, (length msg <= n)%nat ->
  (length msg <= fuel)%nat -> bytes_ok msg -> len pre + len msg <= 255 -> seen_ok mask seen ->
  cs_parse seen msg = Some reqs -> Forall (period_safe c) reqs ->
  len (ca_ans a) <= cs_bound seen ->
  exists es, ca_evs (cs_run E c h0 reqs a) = ca_evs a ++ es /\
    len (ca_ans (cs_run E c h0 reqs a)) <= 9 /\
    cs_loop E fuel c (Some (pre ++ msg ++ post)) (len pre + len msg) (len pre) (len (ca_ans a)) mask
      (h0 ++ ca_evs a) (cs_state A0 a s0) =
    Ok (len (ca_ans (cs_run E c h0 reqs a)), cs_state A0 (cs_run E c h0 reqs a) s0, es).
Proof.
  intros HE Hns HA. induction n as [|n IH]; intros msg fuel pre mask seen reqs a Hn Hf Hm Hlen Hseen Hp Hsafe Ha.
  all: assert (Hbd : forall x, cs_bound x <= 9) by (intro x; unfold cs_bound; destruct (existsb (Z.eqb 0) x), (existsb (Z.eqb 2) x); cbn; lia).
  all: destruct msg as [|b rest]; [|cbn [length] in Hn].
  1, 3: (cbn [cs_parse] in Hp; injection Hp as <-; exists []; rewrite app_nil_r;
    split; [reflexivity|]; split; [pose proof (Hbd seen); cbn [cs_run]; lia|];
    destruct fuel; cbn [cs_loop]; change (len []) with 0; rewrite Z.add_0_r, Z.ltb_irrefl; reflexivity).
  1: lia.
  destruct fuel as [|fuel]; [cbn [length] in Hf; lia|]. cbn [length] in Hf.
  assert (Hb : is_byte b) by (inversion Hm; assumption).
  assert (Hrest : bytes_ok rest) by (inversion Hm; assumption).
  pose proof (Zle_0_nat (length pre)) as Hpre. pose proof (Zle_0_nat (length rest)) as Hrl.
  assert (Hlr : len (b :: rest) = 1 + len rest) by (unfold len; cbn [length]; lia). rewrite Hlr in *.
  cbn [cs_parse] in Hp. destruct (Z.leb_spec 32 b) as [H32|H32]; [discriminate|].
  unfold is_byte in Hb.
  cbn [cs_loop]. replace (len pre <? len pre + (1 + len rest)) with true by (unfold len in *; lia).
  cbn [app]. bstep ltac:(apply cs_get_app).
  bstep ltac:(apply cmd_bit_ok; [exact Hns|lia]).
  rewrite (seen_land mask seen b Hseen) by lia.
  destruct (existsb (Z.eqb b) seen) eqn:Esn.
  { injection Hp as <-. exists []. rewrite app_nil_r. split; [reflexivity|].
    split; [pose proof (Hbd seen); cbn [cs_run]; lia|reflexivity]. }
  assert (Hu : u8 (len pre + 1) = len (pre ++ [b])) by (rewrite len_snoc; apply u8_id; unfold len in *; lia).
  rewrite Hu. rewrite (app_cons_assoc pre b (rest ++ post)).
  pose proof (seen_add mask seen b Hseen ltac:(lia)) as Hseen'.
  set (mask' := u8 (Z.lor mask _)) in *. clearbody mask'.
  set (seen' := if b <? 8 then b :: seen else seen) in *.
  replace (len pre + (1 + len rest)) with (len (pre ++ [b]) + len rest) in * by (rewrite len_snoc; lia).
  assert (Hrl' : len (pre ++ [b]) + len rest <= 255) by exact Hlen.
  (* continuing with the rest of the message and accumulator a' *)
  assert (Cont : forall p2 r2 qs a' e1, (length r2 <= n)%nat -> (length r2 <= fuel)%nat -> bytes_ok r2 ->
     rest = p2 ++ r2 ->
     cs_parse seen' r2 = Some qs -> Forall (period_safe c) qs -> ca_evs a' = ca_evs a ++ e1 ->
     len (ca_ans a') <= cs_bound seen' ->
     exists es, ca_evs (cs_run E c h0 qs a') = ca_evs a ++ es /\ len (ca_ans (cs_run E c h0 qs a')) <= 9 /\
       addev e1 (cs_loop E fuel c (Some ((pre ++ [b]) ++ rest ++ post)) (len (pre ++ [b]) + len rest) (len ((pre ++ [b]) ++ p2))
         (len (ca_ans a')) mask' ((h0 ++ ca_evs a) ++ e1) (cs_state A0 a' s0)) =
       Ok (len (ca_ans (cs_run E c h0 qs a')), cs_state A0 (cs_run E c h0 qs a') s0, es)).
  { intros p2 r2 qs a' e1 Hr2 Hf2 Hb2 Hsp Hp2 Hs2 He1 Hbd2.
    assert (Hll : len (pre ++ [b]) + len rest = len ((pre ++ [b]) ++ p2) + len r2)
      by (rewrite Hsp; unfold len; rewrite !app_length; lia).
    destruct (IH r2 fuel ((pre ++ [b]) ++ p2) mask' seen' qs a' Hr2 Hf2 Hb2) as (es & I1 & I2 & I3); try assumption.
    { rewrite <- Hll. exact Hlen. }
    exists (e1 ++ es). rewrite I1, He1, app_assoc. split; [reflexivity|]. split; [exact I2|].
    rewrite Hll. rewrite He1 in I3. rewrite (app_assoc h0) in I3.
    replace ((pre ++ [b]) ++ rest ++ post) with (((pre ++ [b]) ++ p2) ++ r2 ++ post) by (rewrite Hsp, <- !app_assoc; reflexivity).
    rewrite I3. reflexivity. }
  assert (Hsub : forall x, 0 <= x < 8 -> existsb (Z.eqb x) seen' = (x =? b) || existsb (Z.eqb x) seen).
  { intros x Hx. unfold seen'. destruct (Z.ltb_spec b 8); [reflexivity|]. replace (x =? b) with false by lia. reflexivity. }
  assert (Hbs : cs_bound seen' = cs_bound seen + 3 * b2z (b =? 0) + 6 * b2z (b =? 2)).
  { unfold cs_bound. rewrite !Hsub by lia. destruct (Z.eqb_spec b 0) as [->|B0].
    - rewrite Esn. destruct (existsb (Z.eqb 2) seen); reflexivity.
    - rewrite (proj2 (Z.eqb_neq 0 b)) by lia. cbn [orb].
      destruct (Z.eqb_spec b 2) as [->|B2]; [rewrite Esn; destruct (existsb (Z.eqb 0) seen); reflexivity|].
      rewrite (proj2 (Z.eqb_neq 2 b)) by lia. cbn [orb b2z]. lia. }
  pose proof (Hbd seen) as Hb9. pose proof (Hbd seen') as Hb9'.
  unfold cs_command.
  destruct (Z.eqb_spec b 0) as [Hb0|Hb0].
  { destruct (cs_parse seen' rest) as [qs|] eqn:Eq; [|discriminate]. injection Hp as <-.
    rewrite bind_bind. erewrite bind_ok0; [|apply ans_acc_ok; [exact HA|change (len [0; 1; 1]) with 3; lia]]. msteps.
    destruct (Cont [] rest qs (cs_do E c h0 QVersion a) []) as (es & C1 & C2 & C3); try assumption; try lia; try reflexivity.
    - inversion Hsafe; assumption.
    - cbn [cs_do ca_evs]. rewrite app_nil_r. reflexivity.
    - cbn [cs_do ca_ans]. rewrite Hbs. unfold len in *. rewrite app_length. cbn [length]. rewrite Hb0 in *. cbn. lia.
    - exists es. split; [exact C1|]. split; [exact C2|]. rewrite addev_nil, !app_nil_r in C3. exact C3. }
  destruct (Z.eqb_spec b 1) as [Hb1|Hb1].
  { assert (Hx : len (pre ++ [b]) + len rest - len (pre ++ [b]) = len rest) by lia. rewrite Hx. clear Hx.
    destruct (Z.ltb_spec (len rest) 5) as [H5|H5].
    { assert (Hp' : cs_parse seen' rest = Some reqs).
      { destruct rest as [|b0 [|b1 [|b2 [|b3 [|b4 rest']]]]]; try exact Hp. unfold len in H5. cbn [length] in H5. lia. }
      msteps.
      destruct (Cont [] rest reqs a []) as (es & C1 & C2 & C3); try assumption; try lia; try reflexivity.
      - rewrite app_nil_r. reflexivity.
      - rewrite Hbs. destruct (b =? 2); cbn; lia.
      - exists es. split; [exact C1|]. split; [exact C2|]. rewrite addev_nil, !app_nil_r in C3. exact C3. }
    destruct rest as [|b0 [|b1 [|b2 [|b3 [|b4 rest']]]]]; try (unfold len in H5; cbn [length] in H5; lia).
    destruct (cs_parse seen' rest') as [qs|] eqn:Eq; [|discriminate]. injection Hp as <-.
    set (P := pre ++ [b]) in *.
    assert (HP : forall k, (k <= 4)%nat -> forall (l : list Z), length l = k -> u8 (len (P ++ l) + 1) = len (P ++ l) + 1).
    { intros k Hk l Hl. apply u8_id. unfold len in *. cbn [length] in *. rewrite app_length. lia. }
    assert (Hby : is_byte b0 /\ is_byte b1 /\ is_byte b2 /\ is_byte b3 /\ is_byte b4 /\ bytes_ok rest').
    { repeat match goal with H : bytes_ok (_ :: _) |- _ => inversion H; subst; clear H end.
      repeat match goal with H : Forall _ (_ :: _) |- _ => inversion H; subst; clear H end. auto 10. }
    destruct Hby as (Y0 & Y1 & Y2 & Y3 & Y4 & Yr).
    assert (HP0 : u8 (len P + 1) = len (P ++ [b0])).
    { rewrite len_snoc. rewrite <- (app_nil_r P) at 1. rewrite (HP 0%nat ltac:(lia) []) by reflexivity. rewrite app_nil_r. reflexivity. }
    assert (HP1 : u8 (len (P ++ [b0]) + 1) = len (P ++ [b0; b1]))
      by (rewrite (HP 1%nat) by (reflexivity || lia); unfold len; rewrite !app_length; cbn [length]; lia).
    assert (HP2 : u8 (len (P ++ [b0; b1]) + 1) = len (P ++ [b0; b1; b2]))
      by (rewrite (HP 2%nat) by (reflexivity || lia); unfold len; rewrite !app_length; cbn [length]; lia).
    assert (HP3 : u8 (len (P ++ [b0; b1; b2]) + 1) = len (P ++ [b0; b1; b2; b3]))
      by (rewrite (HP 3%nat) by (reflexivity || lia); unfold len; rewrite !app_length; cbn [length]; lia).
    assert (HP4 : u8 (len (P ++ [b0; b1; b2; b3]) + 1) = len (P ++ [b0; b1; b2; b3; b4]))
      by (rewrite (HP 4%nat) by (reflexivity || lia); unfold len; rewrite !app_length; cbn [length]; lia).
    cbv zeta. rewrite HP0, HP1, HP2, HP3, HP4.
    set (B := P ++ (b0 :: b1 :: b2 :: b3 :: b4 :: rest') ++ post) in *.
    assert (G0 : forall hh ss, cs_get (Some B) (len P) hh ss = Ok (b0, ss, [])) by (intros; apply cs_get_app).
    assert (G1 : forall hh ss, cs_get (Some B) (len (P ++ [b0])) hh ss = Ok (b1, ss, [])).
    { intros. unfold B. replace (P ++ (b0 :: b1 :: b2 :: b3 :: b4 :: rest') ++ post) with ((P ++ [b0]) ++ b1 :: b2 :: b3 :: b4 :: rest' ++ post) by (rewrite <- app_assoc; reflexivity). apply cs_get_app. }
    assert (G2 : forall hh ss, cs_get (Some B) (len (P ++ [b0; b1])) hh ss = Ok (b2, ss, [])).
    { intros. unfold B. replace (P ++ (b0 :: b1 :: b2 :: b3 :: b4 :: rest') ++ post) with ((P ++ [b0; b1]) ++ b2 :: b3 :: b4 :: rest' ++ post) by (rewrite <- app_assoc; reflexivity). apply cs_get_app. }
    assert (G3 : forall hh ss, cs_get (Some B) (len (P ++ [b0; b1; b2])) hh ss = Ok (b3, ss, [])).
    { intros. unfold B. replace (P ++ (b0 :: b1 :: b2 :: b3 :: b4 :: rest') ++ post) with ((P ++ [b0; b1; b2]) ++ b3 :: b4 :: rest' ++ post) by (rewrite <- app_assoc; reflexivity). apply cs_get_app. }
    assert (G4 : forall hh ss, cs_get (Some B) (len (P ++ [b0; b1; b2; b3])) hh ss = Ok (b4, ss, [])).
    { intros. unfold B. replace (P ++ (b0 :: b1 :: b2 :: b3 :: b4 :: rest') ++ post) with ((P ++ [b0; b1; b2; b3]) ++ b4 :: rest' ++ post) by (rewrite <- app_assoc; reflexivity). apply cs_get_app. }
    rewrite ?bind_bind. erewrite bind_ok0; [|apply G0]. rewrite ?bind_bind. erewrite bind_ok0; [|apply G1].
    rewrite ?bind_bind. erewrite bind_ok0; [|apply G2]. rewrite ?bind_bind. erewrite bind_ok0; [|apply G3].
    unfold shl24. rewrite Hns. cbn [andb]. msteps.
    rewrite ?bind_bind. erewrite bind_ok0; [|apply G4]. msteps.
    destruct (unle4_byte b0 b1 b2 b3 Y0 Y1 Y2 Y3) as (U1 & U2).
    rewrite le32 by assumption. rewrite <- U1, s32_spec by exact U2.
    replace (Z.land b4 15) with (b4 mod 16) by (symmetry; apply land_15).
    change (state_token_req (s_cs (cs_state A0 a s0))) with (ca_tok a).
    cbn [cs_run cs_do]. cbn [length] in *.
    destruct (Z.eqb_spec (b4 mod 16) (ca_tok a)) as [Et|Et].
    - msteps. rewrite land_15.
      destruct (Cont [b0; b1; b2; b3; b4] rest' qs (cs_do E c h0 (QAnswer (signed32 (unle [b0; b1; b2; b3])) (b4 mod 16)) a) [KCorrection (signed32 (unle [b0; b1; b2; b3]))])
        as (es & C1 & C2 & C3); try assumption; try lia; try reflexivity.
      + inversion Hsafe; assumption.
      + cbn [cs_do]. rewrite Et, Z.eqb_refl. reflexivity.
      + cbn [cs_do]. rewrite Et, Z.eqb_refl. cbn [ca_ans]. rewrite Hbs. destruct (b =? 2); cbn; lia.
      + cbn [cs_do] in C1, C2, C3. rewrite Et, Z.eqb_refl in C1, C2, C3.
        exists es. split; [exact C1|]. split; [exact C2|]. exact C3.
    - msteps.
      destruct (Cont [b0; b1; b2; b3; b4] rest' qs a []) as (es & C1 & C2 & C3); try assumption; try lia; try reflexivity.
      + inversion Hsafe; assumption.
      + rewrite app_nil_r. reflexivity.
      + rewrite Hbs. destruct (b =? 2); cbn; lia.
      + exists es. split; [exact C1|]. split; [exact C2|]. rewrite addev_nil, !app_nil_r in C3. exact C3. }
  assert (Hu2 : forall b0 r, rest = b0 :: r -> u8 (len (pre ++ [b]) + 1) = len ((pre ++ [b]) ++ [b0])).
  { intros b0 r Hr. rewrite (len_snoc (pre ++ [b])). apply u8_id. rewrite Hr in Hrl'.
    clear - Hrl' Hpre. unfold len in *. cbn [length] in Hrl'. lia. }
  assert (Hd1 : len (pre ++ [b]) + len rest - len (pre ++ [b]) = len rest) by lia.
  destruct (Z.eqb_spec b 2) as [Hb2|Hb2].
  { rewrite Hd1. destruct rest as [|id rest'].
    - injection Hp as <-. change (len []) with 0 in *. cbn [Z.ltb Z.compare]. msteps.
      destruct (Cont [] [] [] a []) as (es & C1 & C2 & C3); try assumption; try (cbn; lia); try reflexivity.
      + rewrite app_nil_r. reflexivity.
      + rewrite Hbs. cbn [b2z]. lia.
      + exists es. split; [exact C1|]. split; [exact C2|]. rewrite addev_nil, !app_nil_r in C3. exact C3.
    - replace (len (id :: rest') <? 1) with false by (unfold len; cbn [length]; lia).
      destruct (cs_parse seen' rest') as [qs|] eqn:Eq; [|discriminate]. injection Hp as <-.
      assert (Yi : is_byte id) by (inversion Hrest; assumption).
      assert (Yr : bytes_ok rest') by (inversion Hrest; assumption).
      rewrite ?bind_bind. erewrite bind_ok0; [|apply cs_get_app]. cbv zeta. rewrite (Hu2 id rest' eq_refl).
      rewrite ?bind_bind. erewrite bind_ok0; [|apply ans_acc_ok; [exact HA|change (len [2]) with 1; lia]].
      set (a1 := Mk_cs_acc (ca_ans a ++ [2]) _ _ _).
      assert (Ha1 : len (ca_ans a1) <= 4).
      { unfold a1. cbn [ca_ans]. rewrite len_snoc. rewrite Hbs in Hb9'. cbn [b2z] in Hb9'. lia. }
      set (e1 := if has_periodicity c then [KPeriod (period_code id)] else []).
      set (a2 := Mk_cs_acc (ca_ans a1 ++ [if has_periodicity c then 0 else 1]) (ca_evs a ++ e1) (ca_tok a) (ca_rep a)).
      rewrite ?bind_bind.
      erewrite (bind_ok _ _ _ _ (len (ca_ans a2)) (cs_state A0 a2 s0) e1).
      2: { unfold e1, a2. destruct (has_periodicity c) eqn:Ehp.
           - assert (Hid : 0 <= id <= 5).
             { inversion Hsafe as [|? ? Hq]; subst. cbn in Hq. specialize (Hq Ehp). unfold is_byte in Yi. lia. }
             erewrite bind_ok0; [|apply period_ok; exact Hid]. msteps.
             change (len (ca_ans a ++ [2])) with (len (ca_ans a1)).
             erewrite ans_acc_ok; [reflexivity|exact HA|change (len [0]) with 1; lia].
           - change (len (ca_ans a ++ [2])) with (len (ca_ans a1)).
             erewrite ans_acc_ok; [reflexivity|exact HA|change (len [1]) with 1; lia]. }
      msteps. rewrite <- (app_assoc h0).
      set (t := e_unixtime E (h0 ++ ca_evs a ++ e1)).
      assert (Htr : 0 <= gps_of_unix t < 4294967296) by (apply Z.mod_pos_bound; lia).
      rewrite gps_spec, time_bytes_spec by exact Htr.
      assert (Hl4 : len (le 4 (gps_of_unix t)) = 4) by reflexivity.
      assert (Ha2 : len (ca_ans a2) <= 5) by (unfold a2; cbn [ca_ans]; rewrite len_snoc; lia).
      rewrite ?bind_bind. erewrite bind_ok0; [|apply ans_acc_ok; [exact HA|rewrite Hl4; lia]]. msteps.
      cbn [length] in *.
      destruct (Cont [id] rest' qs (cs_do E c h0 (QPeriod id) a) (e1 ++ [KUnixtime t])) as (es & C1 & C2 & C3);
        try assumption; try lia; try reflexivity.
      + inversion Hsafe; assumption.
      + cbn [cs_do ca_evs]. unfold t, e1. destruct (has_periodicity c); rewrite <- ?app_assoc, ?app_nil_r; reflexivity.
      + cbn [cs_do ca_ans]. rewrite Hbs. cbn [b2z]. unfold len in *. rewrite !app_length, le_length. cbn [length]. lia.
      + exists es. split; [exact C1|]. split; [exact C2|].
        rewrite addev_addev. change (cs_run E c h0 (QPeriod id :: qs) a) with (cs_run E c h0 qs (cs_do E c h0 (QPeriod id) a)). rewrite <- C3. f_equal. f_equal.
        * cbn [cs_do ca_ans a1 a2]. rewrite <- !app_assoc. unfold t, e1. destruct (has_periodicity c); rewrite ?app_nil_r; reflexivity.
        * rewrite <- !app_assoc. reflexivity.
        * unfold cs_state, a2, a1, cs_do, t, e1. cbn [ca_ans ca_evs ca_tok ca_rep]. rewrite <- !app_assoc.
          destruct (has_periodicity c); rewrite ?app_nil_r; reflexivity. }
  destruct (Z.eqb_spec b 3) as [Hb3|Hb3].
  { destruct rest as [|x rest']; [discriminate|].
    destruct (cs_parse seen' rest') as [qs|] eqn:Eq; [|discriminate]. injection Hp as <-.
    assert (Yr : bytes_ok rest') by (inversion Hrest; assumption).
    rewrite ?bind_bind. erewrite bind_ok0; [|apply cs_get_app]. cbv zeta. rewrite (Hu2 x rest' eq_refl). msteps.
    cbn [length] in *.
    set (e1 := if x mod 8 =? 0 then [] else [KResync]).
    set (s1 := on_cs _ _).
    assert (Hs1 : s1 = cs_state A0 (cs_do E c h0 (QResync (x mod 8)) a) s0) by (unfold s1; rewrite land_7; reflexivity).
    rewrite Hs1. clear s1 Hs1.
    change (force_resync_nb_of_rep (s_cs (cs_state A0 (cs_do E c h0 (QResync (x mod 8)) a) s0))) with (x mod 8).
    erewrite (bind_ok _ _ _ _ tt (cs_state A0 (cs_do E c h0 (QResync (x mod 8)) a) s0) e1).
    2: { unfold e1. destruct (x mod 8 =? 0); reflexivity. }
    msteps.
    destruct (Cont [x] rest' qs (cs_do E c h0 (QResync (x mod 8)) a) e1) as (es & C1 & C2 & C3);
        try assumption; try lia; try reflexivity.
    - inversion Hsafe; assumption.
    - cbn [cs_do ca_evs]. unfold e1. destruct (x mod 8 =? 0); rewrite ?app_nil_r; reflexivity.
    - cbn [cs_do ca_ans]. rewrite Hbs. cbn [b2z]. lia.
    - exists es. split; [exact C1|]. split; [exact C2|]. exact C3. }
  msteps.
  destruct (Cont [] rest reqs a []) as (es & C1 & C2 & C3); try assumption; try lia; try reflexivity.
  - rewrite app_nil_r. reflexivity.
  - rewrite Hbs. cbn [b2z]. lia.
  - exists es. split; [exact C1|]. split; [exact C2|]. rewrite addev_nil, !app_nil_r in C3. exact C3.
Qed.
