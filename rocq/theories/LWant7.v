(** LWant7.v -- the SX127x holds what was asked for *)
From Verif Require Export LRun7.

Definition K (A : Prop) (w : want) (c : c127) : Prop :=
  (c_reg c 77 = 132 /\ c_reg c 32 = 0 /\ c_reg c 33 = 8) /\
  (w_ready w = true -> c_reg c 1 mod 8 = 1) /\
  (w_up w = true -> A -> bit (c_reg c 1) 7 = true) /\
  (forall f, w_freq w = Some f -> c_reg c 6 = nth 0 (frf_bytes f) 0 /\ c_reg c 7 = nth 1 (frf_bytes f) 0 /\ c_reg c 8 = nth 2 (frf_bytes f) 0) /\
  (forall p, w_dbm w = Some p -> -4 <= p <= 17 /\ c_reg c 9 = pa_of p) /\
  (forall p, w_par w = Some p -> params_wf p /\ c_reg c 29 = conf1 p /\ (A -> c_reg c 30 / 4 = conf2 p / 4) /\ c_reg c 38 = conf3 p /\
     c_reg c 51 = (if p_inverted_iq p then 102 else 39) /\ c_reg c 59 = (if p_inverted_iq p then 25 else 29)) /\
  (w_up w = true -> c_reg c 57 = if w_pub w then 52 else 20).
(** the registers [K] reads; [K] is kept when they are *)
Lemma K_keep A w c c' w' : K A w c ->
  (forall a, In a [77; 32; 33; 6; 7; 8; 9; 29; 38; 51; 59; 57] -> c_reg c' a = c_reg c a) ->
  (A -> bit (c_reg c 1) 7 = true -> bit (c_reg c' 1) 7 = true) -> (A -> forall p, params_wf p -> c_reg c 30 / 4 = conf2 p / 4 -> c_reg c' 30 / 4 = conf2 p / 4) ->
  (w_ready w' = true -> c_reg c' 1 mod 8 = 1) ->
  w_up w' = w_up w -> w_freq w' = w_freq w -> w_dbm w' = w_dbm w -> w_par w' = w_par w -> w_pub w' = w_pub w -> K A w' c'.
Proof.
  intros (K1 & K2 & K3 & K4 & K5 & K6 & K7) He Hb H30 Hr U F D P B. unfold K. rewrite U, F, D, P, B.
  rewrite (He 77), (He 32), (He 33), (He 6), (He 7), (He 8), (He 9), (He 29), (He 38), (He 51), (He 59), (He 57) by (cbn; tauto).
  split; [exact K1|]. split; [exact Hr|]. split; [auto|]. split; [exact K4|]. split; [exact K5|]. split; [|exact K7].
  intros p Hp. destruct (K6 p Hp) as (Q0 & Q1 & Q2 & Q3). repeat (split; [first [exact Q0|exact Q1|intro HA; apply (H30 HA p Q0), Q2, HA]|]). exact Q3.
Qed.
Ltac page := reflexivity.
Ltac oth := apply chips_other; [page|reflexivity|cbn; lia].
Lemma land3 x s : is_byte x -> Z.lor (Z.land x (Z.lnot 3)) (Z.land s 3) = 4 * (x / 4) + s mod 4.
Proof.
  intro Hx. assert (E : Z.land x (Z.lnot 3) = x / 4 * 2 ^ 2).
  { change (Z.lnot 3) with (Z.lnot (Z.ones 2)). rewrite <- Z.ldiff_land, Z.ldiff_ones_r by lia. rewrite Z.shiftl_mul_pow2, Z.shiftr_div_pow2 by lia. reflexivity. }
  rewrite E. change 3 with (Z.ones 2). rewrite Z.land_ones by lia. rewrite Z.lor_comm, lor_high; [change (2 ^ 2) with 4; lia|lia|apply Z.mod_pos_bound; lia|]. unfold is_byte in Hx. apply Z.div_pos; lia.
Qed.
Lemma conf2_byte p : params_wf p -> is_byte (conf2 p).
Proof.
  intros (W & _). unfold conf2, is_byte. assert (Hk : (Z.to_nat (p_sf p) < 7)%nat) by lia. revert Hk. generalize (Z.to_nat (p_sf p)). intros k Hk.
  do 7 (destruct k as [|k]; [destruct (p_crc_on p); cbn; lia|]). lia.
Qed.
Lemma K_init A H c0 w c s hal d v s' bs : shape H c0 c s (PInit hal d) v s' bs -> K A (see w (PInit hal d) v) (bchips c bs).
Proof.
  intros (_ & ver & _ & [(_ & -> & ->)|(_ & x & wv & rs & ok & _ & _ & -> & _ & _ & _ & _ & _ & ->)]).
  - rewrite bchips_app. assert (E : bchips c (init_head hal) = Mk_c127 reset127 (c_fifo c) (c_acts c)) by (unfold init_head, opt; destruct (has_io_deinit hal); reflexivity). rewrite E.
    repeat split; try discriminate.
  - rewrite !bchips_app. assert (E : bchips c (init_head hal) = Mk_c127 reset127 (c_fifo c) (c_acts c)) by (unfold init_head, opt; destruct (has_io_deinit hal); reflexivity). rewrite E, polls_chip.
    destruct ok; repeat split; try discriminate; reflexivity.
Qed.
Lemma K_step H c0 w c s o v s' bs (A := answers127 c0 H) : rop_wf o -> K A w c -> shape H c0 c s o v s' bs -> K A (see w o v) (bchips c bs).
Proof.
  intros W HK Sh. destruct o as [hal d| |f|p|b|p|buf|n symb t|cap| | |b].
  - eapply K_init. exact Sh.
  - destruct Sh as (-> & -> & hal & Ho & m & Hm & ->). pose proof (mode_chip H c0 c 0 m Hm ltac:(lia)) as (_ & M2 & _ & M4 & _). cbv zeta in *.
    rewrite bchips_app. assert (E : bchips (bchips c m) (opt (has_io_deinit hal) HIoDeinit) = bchips c m) by (unfold opt; destruct (has_io_deinit hal); reflexivity). rewrite E.
    apply (K_keep A w c); auto; try discriminate.
    + intros a Ha. apply M2. cbn in Ha. lia.
    + intros HA Hb. rewrite M4 by (right; exact HA). exact Hb.
    + intros _ q _ Hq. rewrite M2 by lia. exact Hq.
  - destruct Sh as (-> & -> & ->). assert (O : forall a, ~ In a [6; 7; 8] -> c_reg (bchips c [BW 6 (frf_bytes f)]) a = c_reg c a) by (intros a Ha; apply chips_other; [page|reflexivity|cbn in *; lia]).
    destruct HK as (K1 & K2 & K3 & K4 & K5 & K6 & K7). unfold K. cbn [see w_up w_ready w_freq w_dbm w_par w_pub].
    rewrite (O 77), (O 32), (O 33), (O 1), (O 9), (O 29), (O 30), (O 38), (O 51), (O 59), (O 57) by (cbn; lia).
    repeat (split; [assumption|]). split; [|repeat split; try apply K5; try apply K6; try apply K7; auto].
    intros f' Hf. injection Hf as <-. repeat split.
  - cbn [shape] in Sh. destruct ((p <? -4) || (17 <? p)) eqn:R.
    + destruct Sh as (-> & -> & ->). exact HK.
    + destruct Sh as (-> & -> & ->). assert (O : forall a, a <> 9 -> c_reg (bchips c [BW 9 [pa_of p]]) a = c_reg c a) by (intros a Ha; apply chips_other; [page|reflexivity|cbn in *; lia]).
      destruct HK as (K1 & K2 & K3 & K4 & K5 & K6 & K7). unfold K. cbn [see w_up w_ready w_freq w_dbm w_par w_pub].
      rewrite (O 77), (O 32), (O 33), (O 1), (O 6), (O 7), (O 8), (O 29), (O 30), (O 38), (O 51), (O 59), (O 57) by lia.
      repeat (split; [assumption|]). split; [|split; [exact K6|exact K7]]. intros p' Hp. injection Hp as <-. split; [lia|reflexivity].
  - destruct Sh as (-> & -> & ->). assert (O : forall a, a <> 57 -> c_reg (bchips c [BW 57 [if b then 52 else 20]]) a = c_reg c a) by (intros a Ha; apply chips_other; [page|reflexivity|cbn in *; lia]).
    destruct HK as (K1 & K2 & K3 & K4 & K5 & K6 & K7). unfold K. cbn [see w_up w_ready w_freq w_dbm w_par w_pub].
    rewrite (O 77), (O 32), (O 33), (O 1), (O 6), (O 7), (O 8), (O 9), (O 29), (O 30), (O 38), (O 51), (O 59) by lia.
    repeat (split; [assumption|]). intros _. reflexivity.
  - destruct Sh as (-> & -> & hal & Ho & m & Hm & ->). pose proof (mode_chip H c0 c 1 m Hm ltac:(lia)) as (M1 & M2 & _ & M4 & _). cbv zeta in *.
    rewrite bchips_app. set (c1 := bchips c m) in *. clearbody c1. set (l := _ ++ opt _ _).
    assert (O : forall a, ~ In a [29; 30; 38; 51; 59] -> c_reg (bchips c1 l) a = c_reg c1 a).
    { intros a Ha. unfold l, opt. destruct (has_io_init hal); (apply chips_other; [page|reflexivity|cbn in *; lia]). }
    assert (V : c_reg (bchips c1 l) 29 = conf1 p /\ c_reg (bchips c1 l) 30 = conf2 p /\ c_reg (bchips c1 l) 38 = conf3 p /\
      c_reg (bchips c1 l) 51 = (if p_inverted_iq p then 102 else 39) /\ c_reg (bchips c1 l) 59 = (if p_inverted_iq p then 25 else 29)).
    { unfold l, opt. destruct (has_io_init hal); repeat split. }
    destruct V as (V1 & V2 & V3 & V4 & V5). clearbody l. set (c2 := bchips c1 l) in *. clearbody c2.
    destruct HK as (K1 & K2 & K3 & K4 & K5 & K6 & K7). unfold K. cbn [see w_up w_ready w_freq w_dbm w_par w_pub].
    rewrite (O 77), (O 32), (O 33), (O 1), (O 6), (O 7), (O 8), (O 9), (O 57) by (cbn; lia).
    rewrite (M2 77), (M2 32), (M2 33), (M2 6), (M2 7), (M2 8), (M2 9), (M2 57) by lia.
    split; [exact K1|]. split; [intros _; exact M1|]. split; [intros U HA; rewrite M4 by (right; exact HA); apply K3; assumption|].
    split; [exact K4|]. split; [exact K5|]. split; [|exact K7]. intros p' Hp. injection Hp as <-. rewrite V1, V2, V3, V4, V5. repeat split; apply W.
  - destruct Sh as (-> & -> & hal & Ho & m & Hm & ->). cbv zeta in Hm. set (pre := _ ++ opt _ _) in *. pose proof (mode_chip H c0 _ 3 m Hm ltac:(lia)) as (M1 & M2 & _ & M4 & _). cbv zeta in *.
    assert (O : forall a, ~ In a [14; 13; 34; 17; 64] -> c_reg (bchips c pre) a = c_reg c a).
    { intros a Ha. unfold pre, opt. destruct (has_ant hal); (apply chips_other; [page|reflexivity|cbn in *; lia]). }
    rewrite bchips_app. clearbody pre. set (c1 := bchips c pre) in *. clearbody c1.
    apply (K_keep A w c); auto; try discriminate.
    + intros a Ha. rewrite M2 by (cbn in Ha; lia). apply O. cbn in *. lia.
    + intros HA Hb. rewrite M4 by (right; exact HA). rewrite O by (cbn; lia). exact Hb.
    + intros _ q _ Hq. rewrite M2 by lia. rewrite O by (cbn; lia). exact Hq.
  - destruct Sh as (-> & -> & hal & Ho & x & Bx & Hx & m & Hm & ->). set (pre := _ ++ opt _ _) in *.
    assert (Mr : 0 <= (if t =? 0 then 6 else 5) < 8) by (destruct (t =? 0); lia).
    pose proof (mode_chip H c0 _ _ m Hm Mr) as (M1 & M2 & _ & M4 & _). cbv zeta in *.
    assert (O : forall a, ~ In a [30; 31; 14; 13; 35; 54; 58; 17; 64] -> c_reg (bchips c pre) a = c_reg c a).
    { intros a Ha. unfold pre, opt. destruct (has_ant hal); (apply chips_other; [page|reflexivity|cbn in *; lia]). }
    assert (R30 : c_reg (bchips c pre) 30 = Z.lor (Z.land x (Z.lnot 3)) (Z.land (Z.shiftr symb 8) 3)) by (unfold pre, opt; destruct (has_ant hal); reflexivity).
    rewrite bchips_app. clearbody pre. set (c1 := bchips c pre) in *. clearbody c1.
    apply (K_keep A w c); auto; try discriminate.
    + intros a Ha. rewrite M2 by (cbn in Ha; lia). apply O. cbn in *. lia.
    + intros HA Hb. rewrite M4 by (right; exact HA). rewrite O by (cbn; lia). exact Hb.
    + intros HA q Wq Hq. rewrite M2 by lia. rewrite R30, land3 by exact Bx. rewrite (Hx HA). pose proof (conf2_byte q Wq) as Bq. unfold is_byte in Bq.
      assert (c_reg c 30 mod 256 = c_reg c 30) as ->.
      { apply Z.mod_small. pose proof (Z.div_mod (c_reg c 30) 4 ltac:(lia)). pose proof (Z.mod_pos_bound (c_reg c 30) 4 ltac:(lia)). assert (0 <= conf2 q / 4 < 64) by (split; [apply Z.div_pos; lia|apply Z.div_lt_upper_bound; lia]). lia. }
      rewrite <- Hq. symmetry. apply Z.div_unique with (Z.shiftr symb 8 mod 4); [|lia]. left. apply Z.mod_pos_bound. lia.
  - destruct Sh as (-> & ptr & k & data & snr & rssi & _ & _ & _ & _ & _ & _ & -> & ->).
    match goal with |- K _ _ (bchips c ?l) => assert (O : forall a, a <> 13 -> c_reg (bchips c l) a = c_reg c a) end.
    { intros a Ha. destruct (0 <? Z.min cap k); (apply chips_other; [page|reflexivity|cbn in *; lia]). }
    apply (K_keep A w c _ w HK); try reflexivity.
    + intros a Ha. apply O. cbn in Ha. lia.
    + rewrite O by lia. auto.
    + intros _ q _ Hq. rewrite O by lia. exact Hq.
    + intro R. rewrite O by lia. apply HK. exact R.
  - destruct Sh as (-> & m1 & rs & m2 & Hm1 & Hm2 & _ & _ & -> & ->). rewrite !bchips_app, polls_chip. rewrite bchips_app in Hm2.
    pose proof (mode_chip H c0 _ _ m1 Hm1 ltac:(lia)) as (_ & M2 & _ & M4 & _). pose proof (mode_chip H c0 _ _ m2 Hm2 ltac:(lia)) as (_ & N2 & _ & N4 & _). cbv zeta in *.
    assert (O : forall a, a <> 17 -> c_reg (bchips c [BW 17 [255]]) a = c_reg c a) by (intros a Ha; apply chips_other; [page|reflexivity|cbn in *; lia]).
    set (c1 := bchips c [BW 17 [255]]) in *. clearbody c1. set (c2 := bchips c1 m1) in *. clearbody c2.
    apply (K_keep A w c); auto; try discriminate.
    + intros a Ha. cbn in Ha. rewrite N2, M2, O by lia. reflexivity.
    + intros HA Hb. rewrite N4, M4, O by (first [lia | right; exact HA]). exact Hb.
    + intros _ q _ Hq. rewrite N2, M2, O by lia. exact Hq.
  - destruct Sh as (-> & f & _ & -> & ->).
    match goal with |- K _ _ (bchips c ?l) => assert (O : forall a, a <> 18 -> c_reg (bchips c l) a = c_reg c a) end.
    { intros a Ha. unfold opt. destruct (a_handler s); (apply chips_other; [page|reflexivity|cbn in *; lia]). }
    apply (K_keep A w c _ w HK); try reflexivity.
    + intros a Ha. apply O. cbn in Ha. lia.
    + rewrite O by lia. auto.
    + intros _ q _ Hq. rewrite O by lia. exact Hq.
    + intro R. rewrite O by lia. apply HK. exact R.
  - destruct Sh as (-> & -> & ->). exact HK.
Qed.
Lemma wants_snoc tr o v es : wants (tr ++ [(o, v, es)]) = see (wants tr) o v.
Proof. unfold wants. rewrite fold_left_app. reflexivity. Qed.
(** in every execution, the chip holds what was asked for, whatever it held before *)
Lemma used_K H c0 tr h s : henv_ok H -> used127 H tr h s -> exists hi, h = unparse hi /\ Forall item_ok hi /\ (exists x, a_hal s = Some x) /\ K (answers127 c0 H) (wants tr) (chip127 c0 hi).
Proof.
  intros HH. change (answers127 c0 H) with (answers127 c0 (relax H)).
  apply (rexec_ind2 H (fun tr h s => exists hi, h = unparse hi /\ Forall item_ok hi /\ (exists x, a_hal s = Some x) /\ K (answers127 c0 (relax H)) (wants tr) (chip127 c0 hi))).
  - intros o v s' es Hi W E. change (@nil hev) with (unparse []) in E. destruct (call_inv H c0 [] d127_0 o v s' es HH (Forall_nil _) W (or_introl Hi) E) as (its & bs & -> & F & L & Sh).
    exists its. split; [reflexivity|]. split; [exact F|]. split; [eapply shape_hal; [exact Sh|left; exact Hi]|]. destruct o; try discriminate. change (wants [(PInit hal opts, v, unparse its)]) with (see want0 (PInit hal opts) v).
    rewrite (like_chip _ _ L). eapply K_init. exact Sh.
  - intros tr' h' s0 o v s' es HU (hi & -> & F & Ho & HK) W E. destruct (call_inv H c0 hi s0 o v s' es HH F W (or_intror Ho) E) as (its & bs & -> & F' & L & Sh).
    exists (hi ++ its). rewrite unparse_app, wants_snoc, chip127_app, (like_chip _ _ L). split; [reflexivity|]. split; [apply Forall_app; auto|].
    split; [eapply shape_hal; [exact Sh|right; exact Ho]|]. eapply K_step; [exact W|exact HK|exact Sh].
Qed.
(** everything about one call *)
Lemma used_step H c0 tr h s o v s' es hi its : henv_ok H -> used127 H tr h s -> rop_wf o -> call127 H o h s = Ok (v, s', es) -> transcript h = Some hi -> transcript es = Some its ->
  exists bs, Forall2 like bs its /\ shape (relax H) c0 (chip127 c0 hi) s o v s' bs /\ K (answers127 c0 H) (wants tr) (chip127 c0 hi) /\
    chip127 c0 (hi ++ its) = bchips (chip127 c0 hi) bs.
Proof.
  intros HH HU W E Hh He. destruct (used_K H c0 tr h s HH HU) as (hi' & -> & F & Ho & HK). rewrite (transcript_unparse _ F) in Hh. injection Hh as ->.
  destruct (call_inv H c0 hi s o v s' es HH F W (or_intror Ho) E) as (its' & bs & -> & F' & L & Sh). rewrite (transcript_unparse _ F') in He. injection He as ->.
  exists bs. rewrite chip127_app, (like_chip _ _ L). auto.
Qed.

(** ** What the register contents mean *)
Lemma all_below (P : Z -> bool) n : forallb (fun k => P (Z.of_nat k)) (seq 0 n) = true -> forall x, 0 <= x < Z.of_nat n -> P x = true.
Proof. intros HF x Hx. rewrite forallb_forall in HF. specialize (HF (Z.to_nat x)). rewrite Z2Nat.id in HF by lia. apply HF. apply in_seq. lia. Qed.
Lemma land255 x : Z.land x 255 = x mod 256. Proof. change 255 with (Z.ones 8). apply Z.land_ones. lia. Qed.
Lemma carrier_127 f r : 0 <= f < 1024000000 -> r 6 = nth 0 (frf_bytes f) 0 -> r 7 = nth 1 (frf_bytes f) 0 -> r 8 = nth 2 (frf_bytes f) 0 -> carrier 19 f (modem127 r).
Proof.
  intros Hf E6 E7 E8. unfold carrier. cbn [modem127 m_steps]. rewrite E6, E7, E8. cbn [frf_bytes nth]. rewrite !land255, !Z.shiftr_div_pow2 by lia.
  assert (V : frf f = f * 524288 / 32000000) by (unfold frf; rewrite Z.shiftl_mul_pow2 by lia; reflexivity).
  pose proof (Z.div_mod (f * 524288) 32000000 ltac:(lia)) as D. pose proof (Z.mod_pos_bound (f * 524288) 32000000 ltac:(lia)) as B. rewrite <- V in D.
  assert (R : 0 <= frf f < 16777216) by (rewrite V; split; [apply Z.div_pos; lia|apply Z.div_lt_upper_bound; lia]).
  set (x := frf f) in *. change (2 ^ 16) with 65536. change (2 ^ 8) with 256. change (2 ^ 19) with 524288.
  assert (X : 65536 * (x / 65536 mod 256) + 256 * (x / 256 mod 256) + x mod 256 = x).
  { pose proof (Z.div_mod x 256 ltac:(lia)) as D1. pose proof (Z.div_mod (x / 256) 256 ltac:(lia)) as D2. rewrite Z.div_div in D2 by lia. change (256 * 256) with 65536 in D2.
    rewrite (Z.mod_small (x / 65536)); [lia|]. split; [apply Z.div_pos; lia|apply Z.div_lt_upper_bound; lia]. }
  rewrite X. lia.
Qed.
Lemma dbm_127 p : -4 <= p <= 17 -> dbm127 (pa_of p) 132 = Some (if p <? 0 then 10 * p - 2 else 10 * p).
Proof.
  intro Hp. pose (P := fun x => match dbm127 (pa_of (x - 4)) 132 with Some d => d =? (if x - 4 <? 0 then 10 * (x - 4) - 2 else 10 * (x - 4)) | None => false end).
  assert (A : P (p + 4) = true) by (apply (all_below P 22); [vm_compute; reflexivity|lia]). unfold P in A. replace (p + 4 - 4) with p in A by lia.
  destruct (dbm127 (pa_of p) 132) as [d|]; [|discriminate]. f_equal. lia.
Qed.
Lemma conf1_means p : params_wf p -> khz127 (conf1 p / 16) = 125 * 2 ^ p_bw p /\ conf1 p / 2 mod 8 = 1 + p_cr p /\ bit (conf1 p) 0 = p_implicit_header p.
Proof.
  intros (_ & W2 & W3 & _). unfold conf1.
  assert (E2 : p_bw p = 0 \/ p_bw p = 1 \/ p_bw p = 2) by lia. assert (E3 : p_cr p = 0 \/ p_cr p = 1 \/ p_cr p = 2 \/ p_cr p = 3) by lia.
  destruct E2 as [->|[->| ->]], E3 as [->|[->|[->| ->]]], (p_implicit_header p); repeat split.
Qed.
Lemma conf2_means p : params_wf p -> conf2 p / 16 = 6 + p_sf p /\ bit (conf2 p) 2 = p_crc_on p.
Proof.
  intros (W1 & _). unfold conf2. assert (E : p_sf p = 0 \/ p_sf p = 1 \/ p_sf p = 2 \/ p_sf p = 3 \/ p_sf p = 4 \/ p_sf p = 5 \/ p_sf p = 6) by lia.
  destruct E as [->|[->|[->|[->|[->|[->| ->]]]]]], (p_crc_on p); repeat split.
Qed.
Lemma conf3_means p : bit (conf3 p) 3 = (5 <=? p_sf p).
Proof. unfold conf3. change SF_11 with 5. destruct (5 <=? p_sf p); reflexivity. Qed.
Lemma div4 x y : x / 4 = y / 4 -> x / 16 = y / 16 /\ bit x 2 = bit y 2.
Proof. intro E. unfold bit. change (2 ^ 2) with 4. rewrite E. split; [|reflexivity]. change 16 with (4 * 4). rewrite <- !Z.div_div by lia. rewrite E. reflexivity. Qed.
Lemma K_modulation A w c p : K A w c -> A -> w_par w = Some p -> modulation p (modem127 (c_reg c)) /\ m_ldro (modem127 (c_reg c)) = (5 <=? p_sf p) /\ params_wf p.
Proof.
  intros (_ & _ & _ & _ & _ & K6 & _) HA Hp. destruct (K6 p Hp) as (W & E29 & E30 & E38 & E51 & E59). specialize (E30 HA). apply div4 in E30 as [E30 E30'].
  destruct (conf1_means p W) as (A1 & A2 & A3). destruct (conf2_means p W) as (B1 & B2). unfold modulation. cbn [modem127 m_sf m_khz m_cr m_implicit m_crc m_iq m_ldro].
  rewrite E29, E38, E51, E59, E30, E30', conf3_means. rewrite A1, A2, A3, B1, B2. destruct (p_inverted_iq p); repeat split; apply W.
Qed.
