(** Prop_Own7.v -- C91 for the SX127x driver: a call changes only its own registers *)
From Verif Require Import LAir7 DemoRadio SpecOwn.
Local Ltac enter c0 := match goal with HH : henv_ok ?H, D : does127 ?H ?tr ?h ?s ?o ?v ?s' ?es ?hi ?its |- _ =>
  destruct D as (HU & W & E & Hh & He);
  destruct (used_step H c0 tr h s o v s' es hi its HH HU W E Hh He) as (bs & L & Sh & HK & Hc) end.
Local Definition usual := [PInit hal_full cfg; PHandler true; PFreq 868100000; PPower 14; PPublic true; PSetup (par 1 0 false)].
Local Definition good := [(66, [18]); (59, [0])].

Lemma own_frame H c0 c s o v s' bs : shape H c0 c s o v s' bs -> is_init o = false -> forall a, ~ In a (own127 o) -> c_reg (bchips c bs) a = c_reg c a.
Proof.
  destruct o as [hal d| |f|p|b|p|buf|n symb t|cap| | |b]; cbn [shape own127]; intros Sh Hi a Ha; [discriminate|..].
  - destruct Sh as (-> & -> & hal & Ho & m & Hm & ->). pose proof (mode_chip H c0 c 0 m Hm ltac:(lia)) as (_ & M2 & _). cbv zeta in *.
    rewrite bchips_app. assert (E : bchips (bchips c m) (opt (has_io_deinit hal) HIoDeinit) = bchips c m) by (unfold opt; destruct (has_io_deinit hal); reflexivity). rewrite E. apply M2. cbn in Ha. lia.
  - destruct Sh as (-> & -> & ->). apply chips_other; [page|reflexivity|cbn in *; lia].
  - destruct ((p <? -4) || (17 <? p)); destruct Sh as (-> & -> & ->); [reflexivity|]. apply chips_other; [page|reflexivity|cbn in *; lia].
  - destruct Sh as (-> & -> & ->). apply chips_other; [page|reflexivity|cbn in *; lia].
  - destruct Sh as (-> & -> & hal & Ho & m & Hm & ->). pose proof (mode_chip H c0 c 1 m Hm ltac:(lia)) as (_ & M2 & _). cbv zeta in *.
    rewrite bchips_app. rewrite <- (M2 a) by (cbn in Ha; lia). unfold opt. destruct (has_io_init hal); (apply chips_other; [page|reflexivity|cbn in *; lia]).
  - destruct Sh as (-> & -> & hal & Ho & m & Hm & ->). cbv zeta in Hm. pose proof (mode_chip H c0 _ 3 m Hm ltac:(lia)) as (_ & M2 & _). cbv zeta in *.
    rewrite bchips_app, M2 by (cbn in Ha; lia). unfold opt. destruct (has_ant hal); (apply chips_other; [page|reflexivity|cbn in *; lia]).
  - destruct Sh as (-> & -> & hal & Ho & x & Bx & Hx & m & Hm & ->). assert (Mr : 0 <= (if t =? 0 then 6 else 5) < 8) by (destruct (t =? 0); lia).
    pose proof (mode_chip H c0 _ _ m Hm Mr) as (_ & M2 & _). cbv zeta in *. rewrite bchips_app, M2 by (cbn in Ha; lia). unfold opt. destruct (has_ant hal); (apply chips_other; [page|reflexivity|cbn in *; lia]).
  - destruct Sh as (-> & ptr & k & data & snr & rssi & _ & _ & _ & _ & _ & _ & -> & ->). destruct (0 <? Z.min cap k); (apply chips_other; [page|reflexivity|cbn in *; lia]).
  - destruct Sh as (-> & m1 & rs & m2 & Hm1 & Hm2 & _ & _ & -> & ->). rewrite !bchips_app, polls_chip. rewrite bchips_app in Hm2.
    pose proof (mode_chip H c0 _ _ m1 Hm1 ltac:(lia)) as (_ & M2 & _). pose proof (mode_chip H c0 _ _ m2 Hm2 ltac:(lia)) as (_ & N2 & _). cbv zeta in *.
    rewrite N2, M2 by (cbn in Ha; lia). apply chips_other; [page|reflexivity|cbn in *; lia].
  - destruct Sh as (-> & f & _ & -> & ->). unfold opt. destruct (a_handler s); (apply chips_other; [page|reflexivity|cbn in *; lia]).
  - destruct Sh as (-> & -> & ->). reflexivity.
Qed.

(** what a change of mode leaves of RegOpMode *)
Lemma bit_div8 x y i : 3 <= i < 8 -> x / 8 mod 32 = y / 8 mod 32 -> bit x i = bit y i.
Proof.
  intros Hi E. unfold bit.
  assert (G : forall z, Z.odd (z / 2 ^ i) = Z.odd (z / 8 mod 32 / 2 ^ (i - 3))).
  { intro z. rewrite <- !Z.bit0_odd, <- !Z.shiftr_div_pow2, !Z.shiftr_spec by lia. rewrite !Z.add_0_l. change 32 with (2 ^ 5). rewrite Z.mod_pow2_bits_low by lia. change 8 with (2 ^ 3). rewrite <- Z.shiftr_div_pow2, Z.shiftr_spec by lia. f_equal. lia. }
  rewrite (G x), (G y), E. reflexivity.
Qed.
Lemma mode_bits H c0 c mode bs i : mode_to H c0 c mode bs -> 0 <= mode < 8 -> answers127 c0 H -> 3 <= i < 8 -> bit (c_reg (bchips c bs) 1) i = bit (c_reg c 1) i.
Proof.
  intros Hm Hr HA Hi. pose proof (mode_chip H c0 c mode bs Hm Hr) as (_ & _ & _ & M4 & _). cbv zeta in M4. destruct (Z.eq_dec i 7) as [->|N]; [apply M4; right; exact HA|]. clear M4.
  destruct Hm as (v & w & Bv & Bw & -> & Ha & ->). specialize (Ha HA). unfold bchips. cbn [fold_left bchip burst127]. set (r := c_reg c) in *. 
  change (c_reg (store127 c 1 (8 * (v / 8) + mode)) 1) with (if r 1 mod 8 =? 0 then 8 * (v / 8) + mode else (8 * (v / 8) + mode) mod 128 + 128 * b2z (bit (r 1) 7)).
  assert (E : (8 * (v / 8) + mode) / 8 = v / 8) by (rewrite Z.mul_comm, Z.div_add_l by lia; rewrite (Z.div_small mode) by lia; lia).
  destruct (r 1 mod 8 =? 0).
  - apply bit_div8; [exact Hi|]. rewrite E, Ha, Z.mod_mod by lia. reflexivity.
  - transitivity (bit (8 * (v / 8) + mode) i).
    + unfold bit. assert (E2 : i < 7) by lia. set (x := 8 * (v / 8) + mode). rewrite <- !Z.bit0_odd, <- !Z.shiftr_div_pow2, !Z.shiftr_spec by lia. rewrite !Z.add_0_l.
      rewrite Z.add_comm, Z.mul_comm. change 128 with (2 ^ 7). rewrite <- (Z.mod_pow2_bits_low _ 7 i) by lia. rewrite Z.add_comm, Z.mod_add, Z.mod_mod by lia. apply Z.mod_pow2_bits_low. lia.
    + apply bit_div8; [exact Hi|]. rewrite E, Ha, Z.mod_mod by lia. reflexivity.
Qed.

(** ** C91 *)
(** Registers of other settings keep their values; of RegOpMode only the mode changes, and
    rx() changes only the symbol timeout in RegModemConfig2. *)
Theorem C91_sx127x H c0 tr h s o v s' es hi its : henv_ok H -> does127 H tr h s o v s' es hi its -> is_init o = false ->
  let r := c_reg (chip127 c0 hi) in let r' := c_reg (chip127 c0 (hi ++ its)) in
  (forall a, ~ In a (own127 o) -> r' a = r a) /\ (v = RvBool false -> forall a, r' a = r a) /\
  (answers127 c0 H -> (forall i, 3 <= i < 8 -> bit (r' 1) i = bit (r 1) i) /\ (forall n symb t, o = PRx n symb t -> forall i, 2 <= i < 8 -> bit (r' 30) i = bit (r 30) i)).
Proof.
  intros HH D Hi. enter c0. cbv zeta. rewrite Hc. split; [apply (own_frame _ _ _ _ _ _ _ _ Sh Hi)|]. split.
  { intros -> a. destruct o as [hal d| |f|p|b|p|buf|n symb t|cap| | |b]; cbn [shape] in Sh; try discriminate.
    all: try (repeat match goal with X : _ /\ _ |- _ => destruct X | X : exists _, _ |- _ => destruct X end; discriminate).
    destruct ((p <? -4) || (17 <? p)); destruct Sh as (_ & X & ->); [reflexivity|discriminate]. }
  change (answers127 c0 H) with (answers127 c0 (relax H)). intro HA. split.
  - intros i Hr. destruct (in_dec Z.eq_dec 1 (own127 o)) as [In1|N]; [|rewrite (own_frame _ _ _ _ _ _ _ _ Sh Hi 1 N); reflexivity].
    destruct o as [hal d| |f|p|b|p|buf|n symb t|cap| | |b]; try (cbn in In1; exfalso; lia); clear In1; cbn [shape] in Sh.
    + destruct Sh as (-> & -> & hal & Ho & m & Hm & ->). rewrite bchips_app. rewrite <- (mode_bits _ _ _ _ _ i Hm ltac:(lia) HA Hr). unfold opt; destruct (has_io_deinit hal); reflexivity.
    + destruct Sh as (-> & -> & hal & Ho & m & Hm & ->). rewrite bchips_app. rewrite <- (mode_bits _ _ _ _ _ i Hm ltac:(lia) HA Hr). f_equal. unfold opt. destruct (has_io_init hal); (apply chips_other; [page|reflexivity|cbn; lia]).
    + destruct Sh as (-> & -> & hal & Ho & m & Hm & ->). cbv zeta in Hm. rewrite bchips_app, (mode_bits _ _ _ _ _ i Hm ltac:(lia) HA Hr). f_equal. unfold opt. destruct (has_ant hal); (apply chips_other; [page|reflexivity|cbn; lia]).
    + destruct Sh as (-> & -> & hal & Ho & x & Bx & Hx & m & Hm & ->). assert (Mr : 0 <= (if t =? 0 then 6 else 5) < 8) by (destruct (t =? 0); lia).
      rewrite bchips_app, (mode_bits _ _ _ _ _ i Hm Mr HA Hr). f_equal. unfold opt. destruct (has_ant hal); (apply chips_other; [page|reflexivity|cbn; lia]).
    + destruct Sh as (-> & m1 & rs & m2 & Hm1 & Hm2 & _ & _ & -> & ->). rewrite !bchips_app, polls_chip. rewrite bchips_app in Hm2.
      rewrite (mode_bits _ _ _ _ _ i Hm2 ltac:(lia) HA Hr), (mode_bits _ _ _ _ _ i Hm1 ltac:(lia) HA Hr). reflexivity.
  - intros n symb t -> i Hr. destruct Sh as (-> & -> & hal & Ho & x & Bx & Hx & m & Hm & ->). assert (Mr : 0 <= (if t =? 0 then 6 else 5) < 8) by (destruct (t =? 0); lia).
    pose proof (mode_chip _ _ _ _ m Hm Mr) as (_ & M2 & _). cbv zeta in M2. rewrite bchips_app, M2 by lia. clear M2 Hm.
    transitivity (bit (Z.lor (Z.land x (Z.lnot 3)) (Z.land (Z.shiftr symb 8) 3)) i); [unfold opt; destruct (has_ant hal); reflexivity|].
    rewrite land3 by exact Bx. rewrite (Hx HA). unfold bit. set (y := c_reg (chip127 c0 hi) 30). rewrite <- !Z.bit0_odd, <- !Z.shiftr_div_pow2, !Z.shiftr_spec by lia. rewrite !Z.add_0_l.
    replace i with ((i - 2) + 2) at 1 by lia. rewrite <- Z.div_pow2_bits by lia. change (2 ^ 2) with 4. rewrite Z.mul_comm, Z.div_add_l by lia. rewrite (Z.div_small (_ mod 4)) by (apply Z.mod_pos_bound; lia). rewrite Z.add_0_r.
    change 4 with (2 ^ 2). rewrite Z.div_pow2_bits by lia. change 256 with (2 ^ 8). rewrite Z.mod_pow2_bits_low by lia. f_equal. lia.
Qed.
Print Assumptions C91_sx127x.
Example C91_sx127x_case : case127 (usual ++ [PSetup (par 5 1 true)]) (PRx 64 700 0) (fun c0 tr v hi its =>
  (c_reg (chip127 c0 (hi ++ its)) 1 =? 134) && (c_reg (chip127 c0 hi) 1 =? 129) && (c_reg (chip127 c0 (hi ++ its)) 30 =? 182) && (c_reg (chip127 c0 hi) 30 =? 180)).
Proof. show127 good. Qed.
(** setup() writes 0 to the bits it has no setting for: TxContinuousMode in RegModemConfig2
    and those of RegModemConfig3 without function *)
Theorem C91_sx127x_setup H c0 tr h s p v s' es hi its : henv_ok H -> does127 H tr h s (PSetup p) v s' es hi its ->
  let r' := c_reg (chip127 c0 (hi ++ its)) in bit (r' 30) 3 = false /\ r' 38 / 16 = 0 /\ r' 38 mod 4 = 0.
Proof.
  intros HH D. enter c0. cbv zeta. rewrite Hc. destruct Sh as (-> & -> & hal & Ho & m & Hm & ->). rewrite bchips_app. destruct W as (W1 & _).
  assert (V : forall c1, c_reg (bchips c1 ([BW 29 [conf1 p]; BW 30 [conf2 p]; BW 38 [conf3 p]; BW 51 [if p_inverted_iq p then 102 else 39]; BW 59 [if p_inverted_iq p then 25 else 29]] ++ opt (has_io_init hal) HIoInit)) 30 = conf2 p /\
    c_reg (bchips c1 ([BW 29 [conf1 p]; BW 30 [conf2 p]; BW 38 [conf3 p]; BW 51 [if p_inverted_iq p then 102 else 39]; BW 59 [if p_inverted_iq p then 25 else 29]] ++ opt (has_io_init hal) HIoInit)) 38 = conf3 p).
  { intro c1. unfold opt. destruct (has_io_init hal); split; reflexivity. }
  destruct (V (bchips (chip127 c0 hi) m)) as [-> ->]. clear V. unfold conf2, conf3. split.
  - assert (Hk : (Z.to_nat (p_sf p) < 7)%nat) by lia. revert Hk. generalize (Z.to_nat (p_sf p)). intros k Hk. do 7 (destruct k as [|k]; [destruct (p_crc_on p); reflexivity|]). lia.
  - destruct (SF_11 <=? p_sf p); split; reflexivity.
Qed.
Print Assumptions C91_sx127x_setup.
Example C91_sx127x_setup_case : case127 usual (PSetup (par 6 0 true)) (fun c0 tr v hi its => (c_reg (chip127 c0 (hi ++ its)) 30 =? 196) && (c_reg (chip127 c0 (hi ++ its)) 38 =? 12)).
Proof. show127 good. Qed.
(** init() resets the chip and then changes only registers of its own. *)
Lemma init_frame H c0 c s hal d v s' bs a : shape H c0 c s (PInit hal d) v s' bs -> ~ In a own127_init -> c_reg (bchips c bs) a = reset127 a.
Proof.
  intros (_ & ver & _ & [(_ & -> & ->)|(_ & x & wv & rs & ok & _ & _ & -> & _ & _ & _ & _ & _ & ->)]) Ha.
  - rewrite bchips_app. unfold init_head, opt. destruct (has_io_deinit hal); reflexivity.
  - rewrite !bchips_app, polls_chip. assert (E : bchips c (init_head hal) = Mk_c127 reset127 (c_fifo c) (c_acts c)) by (unfold init_head, opt; destruct (has_io_deinit hal); reflexivity). rewrite E.
    transitivity (c_reg (bchips (Mk_c127 reset127 (c_fifo c) (c_acts c)) ([BR 66 [ver]; BW 6 (frf_bytes 868800000); BR 59 [x]; BW 59 [wv]] ++ if ok then init_tail else [])) a); [rewrite bchips_app; reflexivity|].
    rewrite chips_other; [reflexivity| | |]; unfold own127_init in Ha; destruct ok; try reflexivity; cbn in *; lia.
Qed.
Theorem C91_sx127x_init H c0 h s hal d v s' es hi its : henv_ok H -> inits127 H h s -> rop_wf (PInit hal d) -> call127 H (PInit hal d) h s = Ok (v, s', es) ->
  transcript h = Some hi -> transcript es = Some its -> forall a, ~ In a own127_init -> c_reg (chip127 c0 (hi ++ its)) a = reset127 a.
Proof.
  intros HH HI W E Hh He a Ha. destruct HI as [[-> ->]|[tr HU]].
  - injection Hh as <-. destruct (call_inv H c0 [] d127_0 _ v s' es HH (Forall_nil _) W (or_introl eq_refl) E) as (its' & bs & -> & F & L & Sh). rewrite (transcript_unparse _ F) in He. injection He as <-.
    cbn [app]. rewrite (like_chip _ _ L). eapply init_frame; eassumption.
  - destruct (used_step H c0 tr h s _ v s' es hi its HH HU W E Hh He) as (bs & L & Sh & HK & ->). eapply init_frame; eassumption.
Qed.
Print Assumptions C91_sx127x_init.
Example C91_sx127x_init_case : case127 (usual ++ [PTx [1]]) (PInit hal_full cfg) (fun c0 tr v hi its =>
  (match v with RvBool b => b | _ => false end) && (c_reg (chip127 c0 hi) 34 =? 1) && (c_reg (chip127 c0 hi) 64 =? 64) && (c_reg (chip127 c0 (hi ++ its)) 64 =? 0)).
Proof. show127 good. Qed.

(** ** C51, the detector *)
(** The detector keeps its reset values, which are those for SF7 to SF12. *)
Lemma never_written H c0 tr h s a : henv_ok H -> used127 H tr h s -> a = 49 \/ a = 55 -> exists hi, h = unparse hi /\ Forall item_ok hi /\ (exists x, a_hal s = Some x) /\ c_reg (chip127 c0 hi) a = reset127 a.
Proof.
  intros HH HU Ha. revert tr h s HU.
  apply (rexec_ind2 H (fun tr h s => exists hi, h = unparse hi /\ Forall item_ok hi /\ (exists x, a_hal s = Some x) /\ c_reg (chip127 c0 hi) a = reset127 a)).
  - intros o v s' es Hi W E. change (@nil hev) with (unparse []) in E. destruct (call_inv H c0 [] d127_0 o v s' es HH (Forall_nil _) W (or_introl Hi) E) as (its & bs & -> & F & L & Sh).
    exists its. split; [reflexivity|]. split; [exact F|]. split; [eapply shape_hal; [exact Sh|left; exact Hi]|]. destruct o; try discriminate. rewrite (like_chip _ _ L). eapply init_frame; [exact Sh|]. unfold own127_init. cbn. lia.
  - intros tr' h' s0 o v s' es HU (hi & -> & F & Ho & HK) W E. destruct (call_inv H c0 hi s0 o v s' es HH F W (or_intror Ho) E) as (its & bs & -> & F' & L & Sh).
    exists (hi ++ its). rewrite unparse_app, chip127_app, (like_chip _ _ L). split; [reflexivity|]. split; [apply Forall_app; auto|]. split; [eapply shape_hal; [exact Sh|right; exact Ho]|].
    destruct (is_init o) eqn:Io; [destruct o; try discriminate; eapply init_frame; [exact Sh|]; unfold own127_init; cbn; lia|]. rewrite <- HK. apply (own_frame _ _ _ _ _ _ _ _ Sh Io). destruct o; cbn; lia.
Qed.
Theorem C51_sx127x_detect_partial H c0 tr h s hi p : henv_ok H -> used127 H tr h s -> transcript h = Some hi -> w_par (wants tr) = Some p -> 1 <= p_sf p ->
  detects127 (6 + p_sf p) (c_reg (chip127 c0 hi)).
Proof.
  intros HH HU Hh Hp Hs. unfold detects127. replace (6 + p_sf p =? 6) with false by lia.
  destruct (never_written H c0 tr h s 49 HH HU (or_introl eq_refl)) as (hi1 & E & F & _ & R1). destruct (never_written H c0 tr h s 55 HH HU (or_intror eq_refl)) as (hi2 & E2 & F2 & _ & R2).
  rewrite E, (transcript_unparse _ F) in Hh. injection Hh as ->. rewrite E in E2. assert (hi2 = hi) as -> by (apply (f_equal transcript) in E2; rewrite !transcript_unparse in E2 by assumption; congruence).
  rewrite R1, R2. split; reflexivity.
Qed.
Print Assumptions C51_sx127x_detect_partial.
Example C51_sx127x_detect_partial_case : case127 usual (PTx [1]) (fun c0 tr v hi its => match w_par (wants tr) with Some p => 1 <=? p_sf p | None => false end).
Proof. show127 good. Qed.
(** SF6 is set up with the detector of the others. *)
Theorem C51_sx127x_sf6_refuted : exists H c0 tr h s v s' es hi its, henv_ok H /\ answers127 c0 H /\ does127 H tr h s (PSetup (par 0 0 false)) v s' es hi its /\
  m_sf (modem127 (c_reg (chip127 c0 (hi ++ its)))) = 6 /\ ~ detects127 6 (c_reg (chip127 c0 (hi ++ its))).
Proof.
  assert (X : case127 usual (PSetup (par 0 0 false)) (fun c0 tr v hi its => (m_sf (modem127 (c_reg (chip127 c0 (hi ++ its)))) =? 6) && (c_reg (chip127 c0 (hi ++ its)) 55 =? 10))) by show127 good.
  destruct X as (H & c0 & tr & h & s & v & s' & es & hi & its & HH & HA & D & P). exists H, c0, tr, h, s, v, s', es, hi, its. apply Bool.andb_true_iff in P as [P1 P2].
  repeat (split; [assumption|]). split; [lia|]. intros [_ X]. cbn in X. lia.
Qed.
Print Assumptions C51_sx127x_sf6_refuted.
