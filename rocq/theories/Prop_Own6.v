(** Prop_Own6.v -- C91 for the SX126x driver: a call changes only its own settings *)
From Verif Require Import LWant6 DemoRadio SpecOwn Prop_Irq6.
Local Definition usual := [PInit hal_full cfg; PHandler true; PFreq 868100000; PPower 14; PPublic true; PSetup (par 1 0 false)].

Lemma honest_app a : forall c b, honest126 c (a ++ b) = honest126 c a && honest126 (chip126 c a) b.
Proof. induction a as [|i a IH]; intros c b; [reflexivity|]. cbn [app honest126 chip126 fold_left]. rewrite IH, andb_assoc. reflexivity. Qed.
(** the register read first was read honestly *)
Lemma honest_first c z a g bs its : likes (CG z a [g] :: bs) its -> honest126 c its = true -> a = 1846 \/ a = 2264 -> g = k_reg c a.
Proof.
  intros L Hh Ha. inversion L as [|b l bs' its' Hl L' E1 E2]; subst. destruct Hl as (l' & x & y & Hl & Hx & Hy & ->).
  rewrite <- app_assoc, honest_app in Hh. apply Bool.andb_true_iff in Hh as [_ Hh]. assert (EL : chip126 c l' = c) by (rewrite <- (app_nil_r l'), (lead_chip z) by exact Hl; reflexivity). rewrite EL in Hh. cbn [app honest126] in Hh. apply Bool.andb_true_iff in Hh as [Hh _].
  unfold honest126_item in Hh. assert (R : regs126 [Tr (x ++ y)] = [(a, [g])]).
  { destruct x as [|[q0 w0] [|[q1 w1] [|[q2 w2] [|[q3 w3] [|]]]]]; try discriminate. injection Hx as -> -> -> ->. unfold regs126. cbn [app flat_map]. rewrite Hy. destruct Ha as [-> | ->]; reflexivity. }
  rewrite R in Hh. cbn [forallb] in Hh. destruct Ha as [-> | ->]; cbn in Hh; lia.
Qed.
(** the IQ bit and the clamping threshold, bit by bit *)
Lemma bit_testbit x i : 0 <= i -> bit x i = Z.testbit x i.
Proof. intro Hi. unfold bit. rewrite <- Z.bit0_odd, <- Z.shiftr_div_pow2, Z.shiftr_spec by lia. f_equal. Qed.
Lemma iq_bits (inv : bool) g i : 0 <= i < 8 -> i <> 2 -> bit (if inv then u8 (Z.land g (Z.lnot 4)) else u8 (Z.lor g 4)) i = bit g i.
Proof.
  intros Hi N. rewrite !bit_testbit by lia. unfold u8. change 256 with (2 ^ 8). assert (B : Z.testbit 4 i = false) by (change 4 with (2 ^ 2); apply Z.pow2_bits_false; lia).
  destruct inv; rewrite Z.mod_pow2_bits_low by lia; [rewrite Z.land_spec, Z.lnot_spec, B by lia; apply andb_true_r|rewrite Z.lor_spec, B; apply orb_false_r].
Qed.
Lemma clamp_bits g i : 0 <= i < 8 -> (1 <=? i) && (i <=? 4) = false -> bit (Z.lor g 30) i = bit g i.
Proof.
  intros Hi N. rewrite !bit_testbit, Z.lor_spec by lia. assert (B : Z.testbit 30 i = false) by (assert (C : i = 0 \/ i = 5 \/ i = 6 \/ i = 7) by lia; destruct C as [->|[->|[->| ->]]]; reflexivity).
  rewrite B. apply orb_false_r.
Qed.

(** ** C91 *)
(** Settings of other calls keep their values, and of a register that holds other bits too
    these keep theirs, if the chip answers the read that precedes the write correctly. *)
Theorem C91_sx126x H c0 tr h s o v s' es hi its : henv_ok H -> does126 H tr h s o v s' es hi its -> is_init o = false ->
  let c := chip126 c0 hi in let c' := chip126 c0 (hi ++ its) in
  honest126 c its = true ->
  (forall f, ~ In f (own126 o) -> kept126 c c' f) /\ (forall a i, 0 <= i < 8 -> own126_bit o a i = false -> bit (k_reg c' a) i = bit (k_reg c a) i) /\
  (forall a, (forall i, own126_bit o a i = false) -> k_reg c' a = k_reg c a) /\ (v = RvBool false -> c' = c).
Proof.
  intros HH (HU & W & E & Hh & He) Hi. destruct (used_step H c0 tr h s o v s' es hi its HH HU W E Hh He) as (bs & L & Sh & HK & Rd & Hc). cbv zeta. rewrite Hc. generalize (chip126 c0 hi). clear Hc HK. intros c Ho.
  assert (PKT : forall z p g n rest c2, bs = pkt z p g n ++ rest -> bchips c bs = c2 -> (forall a, k_reg c2 a = k_reg (bchips c (pkt z p g n)) a) ->
    (forall a i, 0 <= i < 8 -> (a =? 1846) && (i =? 2) = false -> bit (k_reg c2 a) i = bit (k_reg c a) i) /\ (forall a, (forall i, (a =? 1846) && (i =? 2) = false) -> k_reg c2 a = k_reg c a)).
  { intros z p g n rest c2 -> _ R. unfold pkt in L. cbn [app] in L. pose proof (honest_first c z 1846 g _ _ L Ho (or_introl eq_refl)) as G. destruct (pkt_kept c z p g n) as [(_ & _ & _ & _ & _ & P) _]. split.
    - intros a i Hr Hb. rewrite R. destruct (Z.eq_dec a 1846) as [->|N]; [|rewrite P by exact N; reflexivity].
      transitivity (bit (if p_inverted_iq p then u8 (Z.land g (Z.lnot 4)) else u8 (Z.lor g 4)) i); [reflexivity|]. rewrite iq_bits by lia. rewrite G. reflexivity.
    - intros a Hb. rewrite R. apply P. intros ->. specialize (Hb 2). discriminate. }
  destruct o as [hal d| |f|q|b|q|buf|n symb t|cap| | |b]; [discriminate|..]; cbn [shape own126 own126_bit] in *.
  - destruct Sh as (-> & _ & hal & _ & ->). rewrite sleep_chip. split; [|repeat split; discriminate]. intros [] N; try (repeat split; fail). destruct N. left. reflexivity.
  - destruct Sh as (-> & _ & ->). split; [|repeat split; discriminate]. intros [] N; try (repeat split; fail). destruct N. left. reflexivity.
  - destruct Sh as (d & _ & Sh). destruct (in_range (is_hp d) q); destruct Sh as (-> & _ & Sh); [|subst bs; repeat split; destruct f; repeat split].
    assert (F : forall f, ~ In f [KPa] -> kept126 c (bchips c bs) f).
    { intros f N. destruct (is_hp d); [destruct Sh as (g & _ & ->)|subst bs; destruct (q =? 15)]; (destruct f; try (repeat split; fail); destruct N; left; reflexivity). }
    split; [exact F|]. destruct (is_hp d).
    + destruct Sh as (g & Bg & ->). pose proof (honest_first c _ 2264 g _ _ L Ho (or_intror eq_refl)) as G.
      assert (R : forall a, k_reg (bchips c [CG (b_sleep s) 2264 [g]; CW false [13; 8; 216; Z.lor g 30]; CW false [13; 8; 231; 56]; CW false [149; 4; 7; 0; 1]; CW false [142; u8 q; 2]]) a = put (put (k_reg c) 2264 (Z.lor g 30)) 2279 56 a) by reflexivity.
      split; [|split; [|discriminate]].
      * intros a i Hr Hb. rewrite R. apply Bool.orb_false_iff in Hb as [Hb N]. rewrite put_other by lia. destruct (Z.eq_dec a 2264) as [->|N2]; [|rewrite put_other by exact N2; reflexivity].
        unfold put. rewrite Z.eqb_refl. rewrite clamp_bits; [rewrite G; reflexivity|exact Hr|]. cbn in Hb. exact Hb.
      * intros a Hb. rewrite R. pose proof (Hb 1) as B1. rewrite !put_other; [reflexivity|intros ->; discriminate|intros ->; discriminate].
    + assert (R : forall a, k_reg (bchips c bs) a = put (k_reg c) 2279 24 a) by (intro a; subst bs; destruct (q =? 15); reflexivity).
      split; [|split; [|discriminate]].
      * intros a i Hr Hb. rewrite R. apply Bool.orb_false_iff in Hb as [_ N]. rewrite put_other by lia. reflexivity.
      * intros a Hb. rewrite R. specialize (Hb 1). apply put_other. intros ->. discriminate.
  - destruct Sh as (-> & _ & ->). assert (R : forall a, a <> 1856 -> a <> 1857 -> k_reg (bchips c [CW (b_sleep s) (13 :: 7 :: 64 :: if b then [52; 68] else [20; 36])]) a = k_reg c a).
    { intros a N1 N2. destruct b; (transitivity (put (put (k_reg c) 1856 0) 1857 0 a); [unfold put; cbn; unfold put; replace (a =? 1857) with false by lia; replace (a =? 1856) with false by lia; reflexivity|rewrite !put_other by lia; reflexivity]). }
    split; [intros f _; destruct b, f; repeat split|]. split; [|split; [|discriminate]].
    + intros a i _ Hb. rewrite R by lia. reflexivity.
    + intros a Hb. specialize (Hb 0). apply R; lia.
  - destruct Sh as (-> & _ & hal & _ & ->). unfold opt. destruct (has_io_init hal); (split; [|repeat split; discriminate]; intros [] N; try (repeat split; fail); destruct N; left; reflexivity).
  - destruct Sh as (-> & _ & hal & _ & g & _ & Eb). assert (R : bchips c bs = bchips (bchips c (pkt (b_sleep s) (b_params s) g (len buf))) (tx_ops hal buf)) by (subst bs; rewrite bchips_app; reflexivity).
    destruct (PKT _ _ _ _ _ _ Eb eq_refl) as [P1 P2]; [intro a; rewrite R, tx_chip; reflexivity|]. split; [|split; [exact P1|split; [exact P2|discriminate]]].
    intros f N. rewrite R, tx_chip, pkt_chip. destruct f; try (repeat split; fail); destruct N; cbn; tauto.
  - destruct Sh as (-> & _ & hal & _ & g & _ & Eb). assert (R : bchips c bs = bchips (bchips c (pkt (b_sleep s) (b_params s) g n)) (rx_tail hal symb t)) by (subst bs; apply bchips_app).
    destruct (PKT _ _ _ _ _ _ Eb eq_refl) as [P1 P2]; [intro a; rewrite R, rx_chip; reflexivity|]. split; [|split; [exact P1|split; [exact P2|discriminate]]].
    intros f N. rewrite R, rx_chip, pkt_chip. destruct f; try (repeat split; fail); destruct N; cbn; tauto.
  - destruct Sh as (_ & n & off & data & p0 & p1 & p2 & _ & _ & _ & _ & _ & _ & _ & -> & ->). split; [intros f _; destruct f; repeat split|repeat split; discriminate].
  - destruct Sh as (_ & hal & _ & g & r0 & r1 & r2 & r3 & _ & _ & _ & _ & _ & -> & Eb).
    assert (R : bchips c bs = bchips (bchips (bchips c (pkt (b_sleep s) (b_params s) g 255)) (rx_tail hal 0 16777215)) (sleep_ops false hal)) by (subst bs; rewrite !bchips_app; reflexivity).
    destruct (PKT _ _ _ _ _ _ Eb eq_refl) as [P1 P2]; [intro a; rewrite R, sleep_chip, rx_chip; reflexivity|]. split; [|split; [exact P1|split; [exact P2|discriminate]]].
    intros f N. rewrite R, sleep_chip, rx_chip, pkt_chip. destruct f; try (repeat split; fail); destruct N; cbn; tauto.
  - destruct Sh as (_ & x & y & _ & _ & -> & ->). unfold opt. destruct (b_handler s); (split; [intros f _; destruct f; repeat split|repeat split; discriminate]).
  - destruct Sh as (-> & _ & ->). split; [intros f _; destruct f; repeat split|repeat split; discriminate].
Qed.
Print Assumptions C91_sx126x.
Example C91_sx126x_case : case126 usual (PTx [1; 2]) (fun c0 tr v hi its =>
  honest126 (chip126 c0 hi) its && (k_reg (chip126 c0 hi) 1846 =? 13) && (k_reg (chip126 c0 (hi ++ its)) 1846 =? 13)).
Proof. show126 [(29, [0; 0; 0; 13])]. Qed.
Example C91_sx126x_case2 : case126 [PInit hal_full cfg; PSetup (par 1 0 true)] (PRx 255 8 0) (fun c0 tr v hi its =>
  honest126 (chip126 c0 hi) its && (k_reg (chip126 c0 hi) 1846 =? 13) && (k_reg (chip126 c0 (hi ++ its)) 1846 =? 9)).
Proof. show126 [(29, [0; 0; 0; 13])]. Qed.
Example C91_sx126x_case3 : case126 [PInit hal_full cfg] (PPower 14) (fun c0 tr v hi its =>
  honest126 (chip126 c0 hi) its && (k_reg (chip126 c0 hi) 2264 =? 200) && (k_reg (chip126 c0 (hi ++ its)) 2264 =? 222)).
Proof. show126 [(29, [0; 0; 0; 200])]. Qed.
(** init() resets the chip; then it selects LoRa and the public network, and leaves the
    other settings at their reset values (but for the trim of the oscillator, 0x911). *)
Theorem C91_sx126x_init H c0 h s hal d v s' es hi its : henv_ok H -> inits126 H h s -> rop_wf (PInit hal d) -> call126 H (PInit hal d) h s = Ok (v, s', es) ->
  transcript h = Some hi -> transcript es = Some its -> let c := reset126 (k_acts (chip126 c0 hi)) in let c' := chip126 c0 (hi ++ its) in
  (forall f, f <> KType -> kept126 c c' f) /\ (forall a, ~ In a [1856; 1857; 2321] -> k_reg c' a = k_reg c a) /\ k_acts c' = k_acts c.
Proof.
  intros HH HI W E Hh He. destruct (init_call H h s hal d v s' es hi its HH HI W E Hh He) as (bs & L & e0 & e1 & _ & _ & _ & _ & ->). cbv zeta. rewrite chip_app, (likes_chip _ _ L). generalize (chip126 c0 hi). intro c.
  unfold init_head, init_tail, sleep_ops, tcxo_ops, opt.
  assert (P : forall x y z w a, ~ In a [1856; 1857; 2321] -> put (put (put w 2321 z) 1856 x) 1857 y a = w a) by (intros x y z w a N; rewrite !put_other; [reflexivity| | |]; intros ->; apply N; cbn; tauto).
  assert (P2 : forall x y w a, ~ In a [1856; 1857; 2321] -> put (put w 1856 x) 1857 y a = w a) by (intros x y w a N; rewrite !put_other; [reflexivity| |]; intros ->; apply N; cbn; tauto).
  assert (P1 : forall z w a, ~ In a [1856; 1857; 2321] -> put w 2321 z a = w a) by (intros z w a N; rewrite put_other; [reflexivity|]; intros ->; apply N; cbn; tauto).
  destruct ((e0 =? 0) && (e1 =? 0)), (use_tcxo d), (has_io_deinit hal).
  all: split; [intros [] N; repeat split; destruct N; reflexivity|split; [|reflexivity]].
  all: intros a N; first [exact (P 52 68 0 _ a N) | exact (P2 52 68 _ a N) | exact (P1 0 _ a N) | reflexivity].
Qed.
Print Assumptions C91_sx126x_init.
Example C91_sx126x_init_case : case126 (usual ++ [PTx [1]]) (PInit hal_full cfg) (fun c0 tr v hi its =>
  (match v with RvBool b => b | _ => false end) && negb (k_freq (chip126 c0 hi) =? 0) && (k_freq (chip126 c0 (hi ++ its)) =? 0) && (k_reg (chip126 c0 hi) 2279 =? 56) && (k_reg (chip126 c0 (hi ++ its)) 2279 =? 24)).
Proof. show126 (@nil (Z * list Z)). Qed.
