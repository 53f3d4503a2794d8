(** PClock3.v -- clock synchronisation: the exact outcome for every message. *)
From Verif Require Export SpecCs LAdr.

Lemma cs_get_end pre h s : cs_get (Some pre) (len pre) h s = Undef UB_oob.
Proof.
  unfold cs_get, arr_get, peek. pose proof (len_nonneg pre). replace (len pre <? 0) with false by lia.
  rewrite (proj2 (nth_error_None pre _)) by (unfold len; lia). reflexivity.
Qed.

Lemma cmd_bit_all E c h s : is_byte c ->
  cmd_bit E c h s = if (32 <=? c) || (e_strict_shl E && (c =? 31)) then Undef UB_shift else Ok ((if c <? 8 then 2 ^ c else 0), s, []).
Proof.
  intro Hc. unfold is_byte in Hc. destruct (Z.leb_spec 32 c) as [H|H]; cbn [orb].
  - unfold cmd_bit. replace (32 <=? c) with true by lia. reflexivity.
  - destruct (e_strict_shl E && (c =? 31)) eqn:Q.
    + unfold cmd_bit. replace (32 <=? c) with false by lia. rewrite Q. reflexivity.
    + assert (K := cmd_bit_ok (relax E) c h s eq_refl ltac:(lia)). unfold cmd_bit in *. replace (32 <=? c) with false in * by lia.
      rewrite Q. exact K.
Qed.
Lemma square_over n h s : (5 <= n)%nat -> square_loop n 2 h s = Undef UB_overflow.
Proof. intro H. do 5 (destruct n as [|n]; [lia|]). reflexivity. Qed.
Lemma period_over id h s : 5 < id -> periodicity_from_period_id id h s = Undef UB_overflow.
Proof.
  intro H. unfold periodicity_from_period_id. replace (id =? 0) with false by lia. unfold bind.
  rewrite square_over by lia. reflexivity.
Qed.
Lemma bind_undef {S E A B} (m : M S E A) (f : A -> M S E B) h s k : m h s = Undef k -> bind m f h s = Undef k.
Proof. intro H. unfold bind. rewrite H. reflexivity. Qed.

(** the second walk over a 255 byte message, after the 8-bit offset wrapped *)
Lemma second_pass E c (B : list Z) size mask seen aoff : forall sk fuel i pre x post h s, (length sk < fuel)%nat ->
  B = pre ++ sk ++ x :: post -> i = len pre -> len pre + len sk < size -> size <= 255 -> bytes_ok sk ->
  Forall (fun c => (32 <=? c) || (e_strict_shl E && (c =? 31)) = false) (sk ++ [x]) -> Forall (fun c => 8 <= c) sk -> seen_ok mask seen -> is_byte x -> In x seen ->
  cs_loop E fuel c (Some B) size i aoff mask h s = Ok (aoff, s, []).
Proof.
  induction sk as [|y sk IH]; intros fuel i pre x post h s Hf HB Hi Hs Hs2 Hb Hg Hsk Hseen Hx Hin; (destruct fuel as [|fuel]; [cbn in Hf; lia|]);
    subst i; cbn [cs_loop]; pose proof (len_nonneg pre).
  - replace (len pre <? size) with true by (unfold len in *; cbn [length] in *; lia).
    rewrite HB. cbn [app]. erewrite bind_ok0; [|apply cs_get_app]. erewrite bind_ok0.
    2: { rewrite cmd_bit_all by exact Hx. inversion Hg as [|? ? G1 G2]. rewrite G1. reflexivity. }
    inversion Hg as [|? ? G1 G2]; subst. apply orb_false_iff in G1. destruct G1 as [G1 _]. unfold is_byte in Hx.
    rewrite (seen_land mask seen x Hseen) by lia.
    replace (existsb (Z.eqb x) seen) with true by (symmetry; apply existsb_exists; exists x; split; [exact Hin|apply Z.eqb_refl]).
    reflexivity.
  - pose proof (len_nonneg sk). rewrite len_cons in Hs. replace (len pre <? size) with true by lia.
    inversion Hb as [|? ? Yb Yb2]; subst. inversion Hg as [|? ? G1 G2]; subst. inversion Hsk as [|? ? K1 K2]; subst.
    cbn [app]. erewrite bind_ok0; [|apply cs_get_app]. erewrite bind_ok0.
    2: { rewrite cmd_bit_all by exact Yb. rewrite G1. reflexivity. }
    apply orb_false_iff in G1. destruct G1 as [G1 _]. unfold is_byte in Yb.
    replace (y <? 8) with false by lia. rewrite Z.land_0_r, Z.lor_0_r. cbn [Z.eqb negb].
    rewrite (u8_id mask) by apply Hseen. rewrite u8_id by lia. unfold cs_command.
    replace (y =? 0) with false by lia. replace (y =? 1) with false by lia. replace (y =? 2) with false by lia. replace (y =? 3) with false by lia.
    msteps. apply (IH fuel (len pre + 1) (pre ++ [y]) x post); try assumption.
    + cbn in Hf. lia.
    + rewrite <- app_assoc. reflexivity.
    + rewrite len_snoc. reflexivity.
    + rewrite len_snoc. lia.
Qed.

Definition okc (E : env) (c : Z) : Prop := (32 <=? c) || (e_strict_shl E && (c =? 31)) = false.
Definition begun (E : env) (pre seen : list Z) : Prop :=
  exists sk tl, pre = sk ++ tl /\ bytes_ok sk /\ Forall (okc E) sk /\ Forall (fun c => 8 <= c) sk /\
    match tl with [] => True | x :: _ => is_byte x /\ okc E x /\ In x seen end.
Lemma begun_skip E pre seen b : begun E pre seen -> is_byte b -> okc E b -> 8 <= b -> begun E (pre ++ [b]) seen.
Proof.
  intros (sk & tl & -> & A & B & C & D) Hb Ho H8. destruct tl as [|x tl].
  - exists (sk ++ [b]), []. rewrite !app_nil_r. split; [reflexivity|].
    split; [apply Forall_app; split; [exact A|repeat constructor; apply Hb]|]. split; [apply Forall_app; auto|]. split; [apply Forall_app; auto|exact I].
  - exists sk, (x :: tl ++ [b]). rewrite <- app_assoc. auto 10.
Qed.
Lemma begun_cmd E pre seen b more : begun E pre seen -> is_byte b -> okc E b -> begun E (pre ++ b :: more) (b :: seen).
Proof.
  intros (sk & tl & -> & A & B & C & D) Hb Ho. destruct tl as [|x tl].
  - exists sk, (b :: more). rewrite app_nil_r. split; [reflexivity|]. split; [exact A|]. split; [exact B|]. split; [exact C|].
    split; [exact Hb|]. split; [exact Ho|left; reflexivity].
  - exists sk, (x :: tl ++ b :: more). rewrite <- app_assoc. split; [reflexivity|]. split; [exact A|]. split; [exact B|]. split; [exact C|].
    destruct D as (D1 & D2 & D3). split; [exact D1|]. split; [exact D2|right; exact D3].
Qed.
Lemma second_all E c pre post mask seen aoff fuel h s : (length pre < fuel)%nat -> begun E pre seen -> pre <> [] -> len pre <= 255 ->
  In (last pre 0) seen -> okc E (last pre 0) -> is_byte (last pre 0) -> seen_ok mask seen ->
  cs_loop E fuel c (Some (pre ++ post)) (len pre) 0 aoff mask h s = Ok (aoff, s, []).
Proof.
  intros Hf (sk & tl & -> & A & B & C & D) Hn Hl Hin Ho Hb Hs. destruct tl as [|x tl].
  - rewrite app_nil_r in *. assert (Q := app_removelast_last 0 Hn). set (x := last sk 0) in *. set (sk' := removelast sk) in *. clearbody x sk'.
    subst sk. apply (second_pass E c _ _ mask seen aoff sk' fuel 0 [] x post h s); try assumption; try reflexivity.
    + rewrite app_length in Hf. lia.
    + cbn [app]. rewrite <- app_assoc. reflexivity.
    + rewrite len_snoc. change (len []) with 0. lia.
    + apply Forall_app in A. apply A.
    + apply Forall_app in C. apply C.
  - destruct D as (D1 & D2 & D3). apply (second_pass E c _ _ mask seen aoff sk fuel 0 [] x (tl ++ post) h s); try assumption; try reflexivity.
    + rewrite app_length in Hf. lia.
    + cbn [app]. rewrite <- app_assoc. reflexivity.
    + rewrite len_app, len_cons. change (len []) with 0. pose proof (len_nonneg tl). lia.
    + apply Forall_app. split; [exact B|repeat constructor; exact D2].
Qed.

Lemma cs_loop_all E c A0 s0 h0 post : env_ok E -> length A0 = 32%nat -> bytes_ok post ->
  forall n msg fuel pre mask seen a, (length msg <= n)%nat ->
  (length msg + 256 <= fuel)%nat -> bytes_ok msg -> len pre + len msg <= 255 -> seen_ok mask seen -> begun E pre seen ->
  len (ca_ans a) <= cs_bound seen ->
  match cs_scan (e_strict_shl E) (has_periodicity c) post seen msg with
  | inl reqs =>
    exists es, ca_evs (cs_run E c h0 reqs a) = ca_evs a ++ es /\
      len (ca_ans (cs_run E c h0 reqs a)) <= 9 /\
      cs_loop E fuel c (Some (pre ++ msg ++ post)) (len pre + len msg) (len pre) (len (ca_ans a)) mask
        (h0 ++ ca_evs a) (cs_state A0 a s0) =
      Ok (len (ca_ans (cs_run E c h0 reqs a)), cs_state A0 (cs_run E c h0 reqs a) s0, es)
  | inr k =>
      cs_loop E fuel c (Some (pre ++ msg ++ post)) (len pre + len msg) (len pre) (len (ca_ans a)) mask
        (h0 ++ ca_evs a) (cs_state A0 a s0) = Undef k
  end.
Proof.
  intros HE HA Hpost. induction n as [|n IH]; intros msg fuel pre mask seen a Hn Hf Hm Hlen Hseen Hbeg Ha.
  all: assert (Hbd : forall x, cs_bound x <= 9) by (intro x; unfold cs_bound; destruct (existsb (Z.eqb 0) x), (existsb (Z.eqb 2) x); cbn; lia).
  all: destruct msg as [|b rest]; [|cbn [length] in Hn].
  1, 3: (cbn [cs_scan]; exists []; rewrite app_nil_r;
    split; [reflexivity|]; split; [pose proof (Hbd seen); cbn [cs_run]; lia|];
    destruct fuel; cbn [cs_loop]; change (len []) with 0; rewrite Z.add_0_r, Z.ltb_irrefl; reflexivity).
  1: lia.
  destruct fuel as [|fuel]; [cbn [length] in Hf; lia|]. cbn [length] in Hf.
  assert (Hb : is_byte b) by (inversion Hm; assumption).
  assert (Hrest : bytes_ok rest) by (inversion Hm; assumption).
  pose proof (Zle_0_nat (length pre)) as Hpre. pose proof (Zle_0_nat (length rest)) as Hrl.
  assert (Hlr : len (b :: rest) = 1 + len rest) by (unfold len; cbn [length]; lia). rewrite Hlr in *.
  cbn [cs_loop]. replace (len pre <? len pre + (1 + len rest)) with true by (unfold len in *; lia).
  cbn [app]. cbn [cs_scan]. erewrite bind_ok0; [|apply cs_get_app].
  destruct ((32 <=? b) || (e_strict_shl E && (b =? 31))) eqn:Hok.
  { apply bind_undef. rewrite cmd_bit_all by exact Hb. rewrite Hok. reflexivity. }
  erewrite bind_ok0; [|rewrite cmd_bit_all by exact Hb; rewrite Hok; reflexivity].
  assert (H32 : b < 32) by (apply orb_false_iff in Hok; destruct Hok; lia).
  unfold is_byte in Hb.
  rewrite (seen_land mask seen b Hseen) by lia.
  destruct (existsb (Z.eqb b) seen) eqn:Esn.
  { exists []. rewrite app_nil_r. split; [reflexivity|].
    split; [pose proof (Hbd seen); cbn [cs_run]; lia|reflexivity]. }
  assert (Hu : u8 (len pre + 1) = len (pre ++ [b])) by (rewrite len_snoc; apply u8_id; unfold len in *; lia).
  rewrite Hu. rewrite (app_cons_assoc pre b (rest ++ post)).
  pose proof (seen_add mask seen b Hseen ltac:(lia)) as Hseen'.
  set (mask' := u8 (Z.lor mask _)) in *. clearbody mask'.
  set (seen' := if b <? 8 then b :: seen else seen) in *.
  replace (len pre + (1 + len rest)) with (len (pre ++ [b]) + len rest) in * by (rewrite len_snoc; lia).
  assert (Hrl' : len (pre ++ [b]) + len rest <= 255) by exact Hlen.
  (* continuing with the rest of the message and accumulator a' *)
  assert (Cont : forall p2 r2 a' e1, (length r2 <= n)%nat -> (length r2 + 256 <= fuel)%nat -> bytes_ok r2 ->
     rest = p2 ++ r2 -> begun E ((pre ++ [b]) ++ p2) seen' ->
     ca_evs a' = ca_evs a ++ e1 ->
     len (ca_ans a') <= cs_bound seen' ->
     match cs_scan (e_strict_shl E) (has_periodicity c) post seen' r2 with
     | inl qs => exists es, ca_evs (cs_run E c h0 qs a') = ca_evs a ++ es /\ len (ca_ans (cs_run E c h0 qs a')) <= 9 /\
       addev e1 (cs_loop E fuel c (Some ((pre ++ [b]) ++ rest ++ post)) (len (pre ++ [b]) + len rest) (len ((pre ++ [b]) ++ p2))
         (len (ca_ans a')) mask' ((h0 ++ ca_evs a) ++ e1) (cs_state A0 a' s0)) =
       Ok (len (ca_ans (cs_run E c h0 qs a')), cs_state A0 (cs_run E c h0 qs a') s0, es)
     | inr k => addev e1 (cs_loop E fuel c (Some ((pre ++ [b]) ++ rest ++ post)) (len (pre ++ [b]) + len rest) (len ((pre ++ [b]) ++ p2))
         (len (ca_ans a')) mask' ((h0 ++ ca_evs a) ++ e1) (cs_state A0 a' s0)) = Undef k
     end).
  { intros p2 r2 a' e1 Hr2 Hf2 Hb2 Hsp Hbg He1 Hbd2.
    assert (Hll : len (pre ++ [b]) + len rest = len ((pre ++ [b]) ++ p2) + len r2)
      by (rewrite Hsp; unfold len; rewrite !app_length; lia).
    pose proof (IH r2 fuel ((pre ++ [b]) ++ p2) mask' seen' a' Hr2 Hf2 Hb2 ltac:(rewrite <- Hll; exact Hlen) Hseen' Hbg Hbd2) as I0.
    rewrite He1 in I0. rewrite (app_assoc h0) in I0.
    replace (((pre ++ [b]) ++ p2) ++ r2 ++ post) with ((pre ++ [b]) ++ rest ++ post) in I0 by (rewrite Hsp, <- !app_assoc; reflexivity).
    rewrite Hll. destruct (cs_scan _ _ post seen' r2) as [qs|k].
    - destruct I0 as (es & I1 & I2 & I3).
      exists (e1 ++ es). rewrite I1, app_assoc. split; [reflexivity|]. split; [exact I2|]. rewrite I3. reflexivity.
    - rewrite I0. reflexivity. }
  assert (Hbig : 8 <= b -> begun E ((pre ++ [b]) ++ []) seen').
  { intro H8. rewrite app_nil_r. unfold seen'. replace (b <? 8) with false by lia. apply begun_skip; assumption. }
  assert (Hsml : forall p2, b < 8 -> begun E ((pre ++ [b]) ++ p2) seen').
  { intros p2 H8. unfold seen'. replace (b <? 8) with true by lia. rewrite <- app_assoc. apply begun_cmd; assumption. }
  assert (Hsub : forall x, 0 <= x < 8 -> existsb (Z.eqb x) seen' = (x =? b) || existsb (Z.eqb x) seen).
  { intros x Hx. unfold seen'. destruct (Z.ltb_spec b 8); [reflexivity|]. replace (x =? b) with false by lia. reflexivity. }
  assert (Hbs : cs_bound seen' = cs_bound seen + 3 * b2z (b =? 0) + 6 * b2z (b =? 2)).
  { unfold cs_bound. rewrite !Hsub by lia. destruct (Z.eqb_spec b 0) as [->|B0].
    - rewrite Esn. destruct (existsb (Z.eqb 2) seen); reflexivity.
    - rewrite (proj2 (Z.eqb_neq 0 b)) by lia. cbn [orb].
      destruct (Z.eqb_spec b 2) as [->|B2]; [rewrite Esn; destruct (existsb (Z.eqb 0) seen); reflexivity|].
      rewrite (proj2 (Z.eqb_neq 2 b)) by lia. cbn [orb b2z]. lia. }
  pose proof (Hbd seen) as Hb9. pose proof (Hbd seen') as Hb9'.
  assert (Fr : (length rest <= n)%nat) by lia. assert (Ff : (length rest + 256 <= fuel)%nat) by lia.
  (* the rest scanned without any request *)
  assert (Idle : b <> 0 -> b <> 2 ->
     match cs_scan (e_strict_shl E) (has_periodicity c) post seen' rest with
     | inl qs => exists es, ca_evs (cs_run E c h0 qs a) = ca_evs a ++ es /\ len (ca_ans (cs_run E c h0 qs a)) <= 9 /\
       cs_loop E fuel c (Some ((pre ++ [b]) ++ rest ++ post)) (len (pre ++ [b]) + len rest) (len (pre ++ [b]))
         (len (ca_ans a)) mask' (h0 ++ ca_evs a) (cs_state A0 a s0) =
       Ok (len (ca_ans (cs_run E c h0 qs a)), cs_state A0 (cs_run E c h0 qs a) s0, es)
     | inr k => cs_loop E fuel c (Some ((pre ++ [b]) ++ rest ++ post)) (len (pre ++ [b]) + len rest) (len (pre ++ [b]))
         (len (ca_ans a)) mask' (h0 ++ ca_evs a) (cs_state A0 a s0) = Undef k
     end).
  { intros N0 N2. assert (Bg : begun E ((pre ++ [b]) ++ []) seen') by (destruct (Z_lt_ge_dec b 8); [apply Hsml; assumption|apply Hbig; lia]).
    pose proof (Cont [] rest a [] Fr Ff Hrest eq_refl Bg) as K. rewrite !app_nil_r in K.
    specialize (K eq_refl ltac:(rewrite Hbs; replace (b =? 0) with false by lia; replace (b =? 2) with false by lia; cbn; lia)).
    destruct (cs_scan _ _ post seen' rest); [destruct K as (es & K1 & K2 & K3); exists es; rewrite addev_nil in K3; auto|rewrite addev_nil in K; exact K]. }
  unfold cs_command.
  destruct (Z.eqb_spec b 0) as [Hb0|Hb0].
  { rewrite bind_bind. erewrite bind_ok0; [|apply ans_acc_ok; [exact HA|change (len [0; 1; 1]) with 3; lia]]. msteps.
    pose proof (Cont [] rest (cs_do E c h0 QVersion a) [] Fr Ff Hrest eq_refl (Hsml [] ltac:(lia))) as K.
    rewrite !app_nil_r in K. specialize (K eq_refl).
    match type of K with ?A -> _ => assert (Q : A) by (cbn [cs_do ca_ans]; rewrite Hbs; unfold len in *; rewrite app_length; cbn [length]; rewrite Hb0 in *; cbn; lia); specialize (K Q) end.
    destruct (cs_scan _ _ post seen' rest) as [qs|k]; cbn [scan_cons].
    - destruct K as (es & C1 & C2 & C3). exists es. split; [exact C1|]. split; [exact C2|]. rewrite addev_nil in C3. exact C3.
    - rewrite addev_nil in K. exact K. }
  destruct (Z.eqb_spec b 1) as [Hb1|Hb1].
  { assert (Hx : len (pre ++ [b]) + len rest - len (pre ++ [b]) = len rest) by lia. rewrite Hx. clear Hx.
    destruct (Z.ltb_spec (len rest) 5) as [H5|H5].
    { replace (match rest with b0 :: b1 :: b2 :: b3 :: b4 :: rest' => _ | _ => _ end) with (cs_scan (e_strict_shl E) (has_periodicity c) post seen' rest)
        by (destruct rest as [|b0 [|b1 [|b2 [|b3 [|b4 rest']]]]]; try reflexivity; unfold len in H5; cbn [length] in H5; lia).
      msteps. apply Idle; lia. }
    destruct rest as [|b0 [|b1 [|b2 [|b3 [|b4 rest']]]]]; try (unfold len in H5; cbn [length] in H5; lia).
    set (P := pre ++ [b]) in *.
    assert (HP : forall k, (k <= 4)%nat -> forall (l : list Z), length l = k -> u8 (len (P ++ l) + 1) = len (P ++ l) + 1).
    { intros k Hk l Hl. apply u8_id. unfold len in *. cbn [length] in *. rewrite app_length. lia. }
    assert (Hby : is_byte b0 /\ is_byte b1 /\ is_byte b2 /\ is_byte b3 /\ is_byte b4 /\ bytes_ok rest').
    { clear - Hrest. repeat match goal with H : bytes_ok (_ :: _) |- _ => inversion H; subst; clear H end.
      repeat match goal with H : Forall _ (_ :: _) |- _ => inversion H; subst; clear H end. auto 10. }
    destruct Hby as (Y0 & Y1 & Y2 & Y3 & Y4 & Yr).
    assert (HP0 : u8 (len P + 1) = len (P ++ [b0])).
    { rewrite len_snoc. rewrite <- (app_nil_r P) at 1. rewrite (HP 0%nat ltac:(lia) []) by reflexivity. rewrite app_nil_r. reflexivity. }
    assert (HP1 : u8 (len (P ++ [b0]) + 1) = len (P ++ [b0; b1]))
      by (rewrite (HP 1%nat) by (reflexivity || lia); unfold len; rewrite !app_length; cbn [length]; lia).
    assert (HP2 : u8 (len (P ++ [b0; b1]) + 1) = len (P ++ [b0; b1; b2]))
      by (rewrite (HP 2%nat) by (reflexivity || lia); unfold len; rewrite !app_length; cbn [length]; lia).
    assert (HP3 : u8 (len (P ++ [b0; b1; b2]) + 1) = len (P ++ [b0; b1; b2; b3]))
      by (rewrite (HP 3%nat) by (reflexivity || lia); unfold len; rewrite !app_length; cbn [length]; lia).
    assert (HP4 : u8 (len (P ++ [b0; b1; b2; b3]) + 1) = len (P ++ [b0; b1; b2; b3; b4]))
      by (rewrite (HP 4%nat) by (reflexivity || lia); unfold len; rewrite !app_length; cbn [length]; lia).
    cbv zeta. rewrite HP0, HP1, HP2, HP3, HP4.
    set (B := P ++ (b0 :: b1 :: b2 :: b3 :: b4 :: rest') ++ post) in *.
    assert (G0 : forall hh ss, cs_get (Some B) (len P) hh ss = Ok (b0, ss, [])) by (intros; apply cs_get_app).
    assert (G1 : forall hh ss, cs_get (Some B) (len (P ++ [b0])) hh ss = Ok (b1, ss, [])).
    { intros. unfold B. replace (P ++ (b0 :: b1 :: b2 :: b3 :: b4 :: rest') ++ post) with ((P ++ [b0]) ++ b1 :: b2 :: b3 :: b4 :: rest' ++ post) by (rewrite <- app_assoc; reflexivity). apply cs_get_app. }
    assert (G2 : forall hh ss, cs_get (Some B) (len (P ++ [b0; b1])) hh ss = Ok (b2, ss, [])).
    { intros. unfold B. replace (P ++ (b0 :: b1 :: b2 :: b3 :: b4 :: rest') ++ post) with ((P ++ [b0; b1]) ++ b2 :: b3 :: b4 :: rest' ++ post) by (rewrite <- app_assoc; reflexivity). apply cs_get_app. }
    assert (G3 : forall hh ss, cs_get (Some B) (len (P ++ [b0; b1; b2])) hh ss = Ok (b3, ss, [])).
    { intros. unfold B. replace (P ++ (b0 :: b1 :: b2 :: b3 :: b4 :: rest') ++ post) with ((P ++ [b0; b1; b2]) ++ b3 :: b4 :: rest' ++ post) by (rewrite <- app_assoc; reflexivity). apply cs_get_app. }
    assert (G4 : forall hh ss, cs_get (Some B) (len (P ++ [b0; b1; b2; b3])) hh ss = Ok (b4, ss, [])).
    { intros. unfold B. replace (P ++ (b0 :: b1 :: b2 :: b3 :: b4 :: rest') ++ post) with ((P ++ [b0; b1; b2; b3]) ++ b4 :: rest' ++ post) by (rewrite <- app_assoc; reflexivity). apply cs_get_app. }
    rewrite ?bind_bind. erewrite bind_ok0; [|apply G0]. rewrite ?bind_bind. erewrite bind_ok0; [|apply G1].
    rewrite ?bind_bind. erewrite bind_ok0; [|apply G2]. rewrite ?bind_bind. erewrite bind_ok0; [|apply G3].
    unfold shl24. destruct (e_strict_shl E && (128 <=? b3)) eqn:Hst.
    { rewrite bind_bind. apply bind_undef. reflexivity. }
    msteps.
    rewrite ?bind_bind. erewrite bind_ok0; [|apply G4]. msteps.
    destruct (unle4_byte b0 b1 b2 b3 Y0 Y1 Y2 Y3) as (U1 & U2).
    rewrite le32 by assumption. rewrite <- U1, s32_spec by exact U2.
    replace (Z.land b4 15) with (b4 mod 16) by (symmetry; apply land_15).
    change (state_token_req (s_cs (cs_state A0 a s0))) with (ca_tok a).
    cbn [length] in *. set (corr := signed32 (unle [b0; b1; b2; b3])) in *.
    destruct (Z.eqb_spec (b4 mod 16) (ca_tok a)) as [Et|Et].
    - msteps. rewrite land_15.
      pose proof (Cont [b0; b1; b2; b3; b4] rest' (cs_do E c h0 (QAnswer corr (b4 mod 16)) a) [KCorrection corr] ltac:(lia) ltac:(lia) Yr eq_refl (Hsml _ ltac:(lia))) as K.
      cbn [cs_do] in K. rewrite Et, Z.eqb_refl in K. specialize (K eq_refl). cbn [ca_ans] in K.
      specialize (K ltac:(rewrite Hbs; replace (b =? 2) with false by lia; cbn; lia)). rewrite Et.
      destruct (cs_scan _ _ post seen' rest') as [qs|k]; cbn [scan_cons].
      + destruct K as (es & C1 & C2 & C3). exists es. cbn [cs_run cs_do]. rewrite Z.eqb_refl. split; [exact C1|]. split; [exact C2|exact C3].
      + exact K.
    - msteps.
      pose proof (Cont [b0; b1; b2; b3; b4] rest' a [] ltac:(lia) ltac:(lia) Yr eq_refl (Hsml _ ltac:(lia))) as K.
      rewrite !app_nil_r in K. specialize (K eq_refl ltac:(rewrite Hbs; replace (b =? 2) with false by lia; cbn; lia)).
      destruct (cs_scan _ _ post seen' rest') as [qs|k]; cbn [scan_cons].
      + destruct K as (es & C1 & C2 & C3). exists es. cbn [cs_run cs_do]. replace (b4 mod 16 =? ca_tok a) with false by lia.
        rewrite addev_nil in C3. split; [exact C1|]. split; [exact C2|exact C3].
      + rewrite addev_nil in K. exact K. }
  assert (Hu2 : forall b0 r, rest = b0 :: r -> u8 (len (pre ++ [b]) + 1) = len ((pre ++ [b]) ++ [b0])).
  { intros b0 r Hr. rewrite (len_snoc (pre ++ [b])). apply u8_id. rewrite Hr in Hrl'.
    clear - Hrl' Hpre. unfold len in *. cbn [length] in Hrl'. lia. }
  assert (Hd1 : len (pre ++ [b]) + len rest - len (pre ++ [b]) = len rest) by lia.
  destruct (Z.eqb_spec b 2) as [Hb2|Hb2].
  { rewrite Hd1. destruct rest as [|id rest'].
    - change (len []) with 0 in *. cbn [Z.ltb Z.compare]. msteps.
      pose proof (Cont [] [] a [] Fr Ff Hrest eq_refl (Hsml _ ltac:(lia))) as K. rewrite !app_nil_r in K. specialize (K eq_refl ltac:(rewrite Hbs; cbn; lia)).
      cbn [cs_scan] in K. destruct K as (es & C1 & C2 & C3). exists es. rewrite addev_nil in C3. split; [exact C1|]. split; [exact C2|exact C3].
    - replace (len (id :: rest') <? 1) with false by (unfold len; cbn [length]; lia).
      assert (Yi : is_byte id) by (inversion Hrest; assumption).
      assert (Yr : bytes_ok rest') by (inversion Hrest; assumption).
      rewrite ?bind_bind. erewrite bind_ok0; [|apply cs_get_app]. cbv zeta. rewrite (Hu2 id rest' eq_refl).
      rewrite ?bind_bind. erewrite bind_ok0; [|apply ans_acc_ok; [exact HA|change (len [2]) with 1; lia]].
      set (a1 := Mk_cs_acc (ca_ans a ++ [2]) _ _ _).
      assert (Ha1 : len (ca_ans a1) <= 4).
      { unfold a1. cbn [ca_ans]. rewrite len_snoc. rewrite Hbs in Hb9'. cbn [b2z] in Hb9'. lia. }
      destruct (has_periodicity c && (5 <? id)) eqn:Hov.
      { apply andb_prop in Hov. destruct Hov as (Ov1 & Ov2). rewrite Ov1. rewrite ?bind_bind. apply bind_undef. apply period_over. lia. }
      set (e1 := if has_periodicity c then [KPeriod (period_code id)] else []).
      set (a2 := Mk_cs_acc (ca_ans a1 ++ [if has_periodicity c then 0 else 1]) (ca_evs a ++ e1) (ca_tok a) (ca_rep a)).
      rewrite ?bind_bind.
      erewrite (bind_ok _ _ _ _ (len (ca_ans a2)) (cs_state A0 a2 s0) e1).
      2: { unfold e1, a2. destruct (has_periodicity c) eqn:Ehp.
           - assert (Hid : 0 <= id <= 5) by (cbn [andb] in Hov; unfold is_byte in Yi; lia).
             erewrite bind_ok0; [|apply period_ok; exact Hid]. msteps.
             change (len (ca_ans a ++ [2])) with (len (ca_ans a1)).
             erewrite ans_acc_ok; [reflexivity|exact HA|change (len [0]) with 1; lia].
           - change (len (ca_ans a ++ [2])) with (len (ca_ans a1)).
             erewrite ans_acc_ok; [reflexivity|exact HA|change (len [1]) with 1; lia]. }
      msteps. rewrite <- (app_assoc h0).
      set (t := e_unixtime E (h0 ++ ca_evs a ++ e1)).
      assert (Htr : 0 <= gps_of_unix t < 4294967296) by (apply Z.mod_pos_bound; lia).
      rewrite gps_spec, time_bytes_spec by exact Htr.
      assert (Hl4 : len (le 4 (gps_of_unix t)) = 4) by reflexivity.
      assert (Ha2 : len (ca_ans a2) <= 5) by (unfold a2; cbn [ca_ans]; rewrite len_snoc; lia).
      rewrite ?bind_bind. erewrite bind_ok0; [|apply ans_acc_ok; [exact HA|rewrite Hl4; lia]]. msteps.
      cbn [length] in *.
      pose proof (Cont [id] rest' (cs_do E c h0 (QPeriod id) a) (e1 ++ [KUnixtime t]) ltac:(lia) ltac:(lia) Yr eq_refl (Hsml _ ltac:(lia))) as K.
      match type of K with ?A -> _ => assert (Q : A) by (cbn [cs_do ca_evs]; unfold t, e1; destruct (has_periodicity c); rewrite <- ?app_assoc, ?app_nil_r; reflexivity); specialize (K Q); clear Q end.
      match type of K with ?A -> _ => assert (Q : A) by (cbn [cs_do ca_ans]; rewrite Hbs; cbn [b2z]; unfold len in *; rewrite !app_length, le_length; cbn [length]; lia); specialize (K Q); clear Q end.
      rewrite addev_addev.
      match type of K with context [addev _ ?X] => match goal with |- context [addev _ ?Y] => assert (XY : Y = X) end end.
      { f_equal.
        * cbn [cs_do ca_ans a1 a2]. rewrite <- !app_assoc. unfold t, e1. destruct (has_periodicity c); rewrite ?app_nil_r; reflexivity.
        * rewrite <- !app_assoc. reflexivity.
        * unfold cs_state, a2, a1, cs_do, t, e1. cbn [ca_ans ca_evs ca_tok ca_rep]. rewrite <- !app_assoc.
          destruct (has_periodicity c); rewrite ?app_nil_r; reflexivity. }
      rewrite XY. clear XY.
      destruct (cs_scan _ _ post seen' rest') as [qs|k]; cbn [scan_cons].
      + destruct K as (es & C1 & C2 & C3). exists es.
        change (cs_run E c h0 (QPeriod id :: qs) a) with (cs_run E c h0 qs (cs_do E c h0 (QPeriod id) a)). auto.
      + exact K. }
  destruct (Z.eqb_spec b 3) as [Hb3|Hb3].
  { destruct rest as [|x rest'].
    - cbn [app]. destruct post as [|x post'].
      + apply bind_undef, bind_undef. rewrite app_nil_r. apply cs_get_end.
      + rewrite ?bind_bind. erewrite bind_ok0; [|apply cs_get_app]. cbv zeta. msteps.
        set (e1 := if x mod 8 =? 0 then [] else [KResync]).
        set (s1 := on_cs _ _).
        assert (Hs1 : s1 = cs_state A0 (cs_do E c h0 (QResync (x mod 8)) a) s0) by (unfold s1; rewrite land_7; reflexivity).
        rewrite Hs1. clear s1 Hs1.
        change (force_resync_nb_of_rep (s_cs (cs_state A0 (cs_do E c h0 (QResync (x mod 8)) a) s0))) with (x mod 8).
        erewrite (bind_ok _ _ _ _ tt (cs_state A0 (cs_do E c h0 (QResync (x mod 8)) a) s0) e1).
        2: { unfold e1. destruct (x mod 8 =? 0); reflexivity. }
        msteps. exists e1. split; [cbn [cs_run cs_do ca_evs]; unfold e1; destruct (x mod 8 =? 0); rewrite ?app_nil_r; reflexivity|].
        split; [cbn [cs_run cs_do ca_ans]; lia|].
        assert (L : cs_loop E fuel c (Some ((pre ++ [b]) ++ x :: post')) (len (pre ++ [b]) + len []) (u8 (len (pre ++ [b]) + 1)) (len (ca_ans a)) mask'
                  ((h0 ++ ca_evs a) ++ e1) (cs_state A0 (cs_do E c h0 (QResync (x mod 8)) a) s0) = Ok (len (ca_ans a), cs_state A0 (cs_do E c h0 (QResync (x mod 8)) a) s0, [])).
        { change (len []) with 0 in *. rewrite Z.add_0_r in *. destruct (Z.eq_dec (len (pre ++ [b])) 255) as [Q|Q].
          - rewrite Q at 2. change (u8 (255 + 1)) with 0. pose proof (Hsml [] ltac:(lia)) as Bg. rewrite app_nil_r in Bg.
            apply (second_all E c (pre ++ [b]) (x :: post') mask' seen'); try assumption.
            + unfold len in Q. lia.
            + destruct pre; discriminate.
            + rewrite last_last. unfold seen'. replace (b <? 8) with true by lia. left. reflexivity.
            + rewrite last_last. exact Hok.
            + rewrite last_last. exact Hb.
          - rewrite u8_id by (pose proof (len_nonneg (pre ++ [b])); lia). destruct fuel; cbn [cs_loop]; replace (len (pre ++ [b]) + 1 <? len (pre ++ [b])) with false by lia; reflexivity. }
        cbn [app] in L. rewrite L. cbn [addev cs_run]. rewrite app_nil_r. reflexivity.
    - assert (Yr : bytes_ok rest') by (inversion Hrest; assumption).
      rewrite ?bind_bind. erewrite bind_ok0; [|apply cs_get_app]. cbv zeta. rewrite (Hu2 x rest' eq_refl). msteps.
      cbn [length] in *.
      set (e1 := if x mod 8 =? 0 then [] else [KResync]).
      set (s1 := on_cs _ _).
      assert (Hs1 : s1 = cs_state A0 (cs_do E c h0 (QResync (x mod 8)) a) s0) by (unfold s1; rewrite land_7; reflexivity).
      rewrite Hs1. clear s1 Hs1.
      change (force_resync_nb_of_rep (s_cs (cs_state A0 (cs_do E c h0 (QResync (x mod 8)) a) s0))) with (x mod 8).
      erewrite (bind_ok _ _ _ _ tt (cs_state A0 (cs_do E c h0 (QResync (x mod 8)) a) s0) e1).
      2: { unfold e1. destruct (x mod 8 =? 0); reflexivity. }
      msteps.
      pose proof (Cont [x] rest' (cs_do E c h0 (QResync (x mod 8)) a) e1 ltac:(lia) ltac:(lia) Yr eq_refl (Hsml _ ltac:(lia))) as K.
      match type of K with ?A -> _ => assert (Q : A) by (cbn [cs_do ca_evs]; unfold e1; destruct (x mod 8 =? 0); rewrite ?app_nil_r; reflexivity); specialize (K Q); clear Q end.
      match type of K with ?A -> _ => assert (Q : A) by (cbn [cs_do ca_ans]; rewrite Hbs; cbn [b2z]; lia); specialize (K Q); clear Q end.
      destruct (cs_scan _ _ post seen' rest') as [qs|k]; cbn [scan_cons].
      + destruct K as (es & C1 & C2 & C3). exists es. split; [exact C1|]. split; [exact C2|]. exact C3.
      + exact K. }
  msteps. apply Idle; assumption.
Qed.
