(** LDrv7.v -- src/device/sx127x.c call by call: the register accesses it makes *)
From Verif Require Export PDrv7 Drv.

(** Register accesses: a transaction without the bytes that do not matter. *)
Inductive bop := BW (a : Z) (vs : list Z) | BR (a : Z) (vs : list Z) | BD (e : hev).
Definition like (b : bop) (i : item) : Prop :=
  match b, i with
  | BW a vs, Tr x => mosi x = 128 + a :: vs /\ 0 <= a < 128
  | BR a vs, Tr ((a', _) :: y) => a' = a /\ miso y = vs /\ 0 <= a < 128
  | BD e, Do e' => e' = e /\ quiet e = true
  | _, _ => False
  end.
Definition bchip (c : c127) (b : bop) : c127 :=
  match b with BW a vs => burst127 c a vs | BR _ _ => c | BD (HReset true) => Mk_c127 reset127 (c_fifo c) (c_acts c) | BD _ => c end.
Definition bchips (c : c127) (bs : list bop) : c127 := fold_left bchip bs c.
Definition breads (a : Z) (bs : list bop) : list Z := flat_map (fun b => match b with BR a' vs => if a' =? a then vs else [] | _ => [] end) bs.
Definition bwrites (a : Z) (bs : list bop) : list Z := flat_map (fun b => match b with BW a' vs => if a' =? a then vs else [] | _ => [] end) bs.
Definition bcalls (bs : list bop) : list hev := flat_map (fun b => match b with BD e => [e] | _ => [] end) bs.
Definition brs_see (p : rs) (b : bop) : option rs := rs_see p (match b with BD e => Do e | _ => Tr [] end).
Fixpoint brs (p : rs) (bs : list bop) : option rs := match bs with [] => Some p | b :: bs' => match brs_see p b with Some p' => brs p' bs' | None => None end end.

Lemma like_chip bs its : Forall2 like bs its -> forall c, chip127 c its = bchips c bs.
Proof.
  induction 1 as [|b i bs its Hl _ IH]; intro c; [reflexivity|]. unfold chip127, bchips in *. cbn [fold_left]. rewrite IH. f_equal.
  destruct b as [a vs|a vs|e], i as [x|e']; cbn [like] in Hl; try tauto.
  - destruct Hl as [Hx Ha]. cbn [item127 bchip]. rewrite Hx. replace (128 <=? 128 + a) with true by lia. f_equal. lia.
  - destruct x as [|[a' z] y]; [tauto|]. destruct Hl as (-> & _ & Ha). cbn [item127 bchip mosi map fst]. replace (128 <=? a) with false by lia. reflexivity.
  - destruct Hl as [-> _]. destruct e; try reflexivity.
Qed.
Lemma like_reads a bs its : Forall2 like bs its -> 0 <= a < 128 -> reads127 a its = breads a bs /\ writes127 a its = bwrites a bs.
Proof.
  intros HF Ha. induction HF as [|b i bs its Hl _ [IH1 IH2]]; [split; reflexivity|]. unfold reads127, writes127, breads, bwrites in *. cbn [flat_map]. rewrite IH1, IH2.
  destruct b as [a1 vs|a1 vs|e], i as [x|e']; cbn [like] in Hl; try tauto.
  - destruct Hl as [Hx Ha1]. destruct x as [|[a' z] y]; [discriminate|]. 
    assert (X : a' = 128 + a1 /\ mosi y = vs) by (split; [exact (f_equal (hd 0) Hx)|exact (f_equal (@tl Z) Hx)]). destruct X as [Xa Xy].
    split; [destruct (a' =? a) eqn:E1; [lia|reflexivity]|]. rewrite Xy. destruct (a' =? 128 + a) eqn:E1; destruct (a1 =? a) eqn:E2; try lia; reflexivity.
  - destruct x as [|[a' z] y]; [tauto|]. destruct Hl as (-> & Hy & Ha1). replace (a1 =? 128 + a) with false by lia. rewrite Hy. split; reflexivity.
Qed.
Lemma like_calls bs its : Forall2 like bs its -> calls its = bcalls bs /\ user_calls its = flat_map (fun e => match e with HUser m => [m] | _ => [] end) (bcalls bs).
Proof.
  induction 1 as [|b i bs its Hl _ [IH1 IH2]]; [split; reflexivity|]. unfold calls, user_calls, bcalls in *. cbn [flat_map]. rewrite IH1, IH2, flat_map_app.
  destruct b as [a1 vs|a1 vs|e], i as [x|e']; cbn [like] in Hl; try tauto; try (split; reflexivity).
  destruct Hl as [-> _]. split; [reflexivity|]. cbn [flat_map]. rewrite app_nil_r. reflexivity.
Qed.
Lemma like_ok bs its : Forall2 like bs its -> Forall item_ok its.
Proof.
  induction 1 as [|b i bs its Hl _ IH]; constructor; [|exact IH]. destruct b as [a vs|a vs|e], i as [x|e']; cbn [like] in Hl; try tauto.
  - destruct Hl as [Hx _]. intros ->. discriminate.
  - destruct x; [tauto|discriminate].
  - destruct Hl as [-> Hq]. exact Hq.
Qed.
Lemma like_rs bs its : Forall2 like bs its -> forall p, rs_run p its = brs p bs.
Proof.
  induction 1 as [|b i bs its Hl _ IH]; intro p; [reflexivity|]. cbn [rs_run brs]. unfold brs_see.
  assert (rs_see p i = rs_see p (match b with BD e => Do e | _ => Tr [] end)) as ->.
  { destruct b as [a1 vs|a1 vs|e], i as [x|e']; cbn [like] in Hl; try tauto; try reflexivity. destruct Hl as [-> _]. reflexivity. }
  destruct (rs_see _ _); [apply IH|reflexivity].
Qed.
Lemma bchips_app c a b : bchips c (a ++ b) = bchips (bchips c a) b. Proof. apply fold_left_app. Qed.
Lemma brs_app a : forall p b, brs p (a ++ b) = match brs p a with Some q => brs q b | None => None end.
Proof. induction a as [|i a IH]; intros p b; [reflexivity|]. cbn [app brs]. destruct (brs_see p i); [apply IH|reflexivity]. Qed.
Lemma breads_app x a b : breads x (a ++ b) = breads x a ++ breads x b. Proof. apply flat_map_app. Qed.
Lemma bwrites_app x a b : bwrites x (a ++ b) = bwrites x a ++ bwrites x b. Proof. apply flat_map_app. Qed.
Lemma bcalls_app a b : bcalls (a ++ b) = bcalls a ++ bcalls b. Proof. apply flat_map_app. Qed.

Lemma len_cons x l : len (x :: l) = 1 + len l. Proof. unfold len. cbn [length]. lia. Qed.
Lemma lor_byte a b : is_byte a -> is_byte b -> is_byte (Z.lor a b).
Proof.
  unfold is_byte. intros Ha Hb. assert (0 <= Z.lor a b) by (apply Z.lor_nonneg; lia). split; [assumption|].
  destruct (Z.eq_dec (Z.lor a b) 0) as [->|N]; [lia|]. change 256 with (2 ^ 8). apply Z.log2_lt_pow2; [lia|]. rewrite Z.log2_lor by lia.
  apply Z.max_lub_lt; [destruct (Z.eq_dec a 0) as [->|]|destruct (Z.eq_dec b 0) as [->|]]; try (cbn; lia); apply Z.log2_lt_pow2; lia.
Qed.
Section T.
Context (H : henv) (HH : henv_ok H) (c0 : c127).
(** [m], started in chip state [c], makes register accesses for which [Q] *)
Definition T {A} (c : c127) (m : D127 A) (s : d127) (Q : A -> d127 -> list bop -> Prop) : Prop :=
  forall h, Forall item_ok h -> chip127 c0 h = c -> wp m h s (fun v s' its => exists bs, Forall2 like bs its /\ Q v s' bs).
Local Notation on s := (exists o, a_hal s = Some o).
Lemma T_bind {A B} c (m : D127 A) (f : A -> D127 B) s Q :
  T c m s (fun a s1 b1 => T (bchips c b1) (f a) s1 (fun b s2 b2 => Q b s2 (b1 ++ b2))) -> T c (bind m f) s Q.
Proof.
  intros Hm h F Hc. apply wp_bind. eapply wp_weaken; [apply Hm; [exact F|exact Hc]|]. intros a s1 i1 (b1 & L1 & Hf).
  eapply wp_weaken; [apply Hf; [apply Forall_app; split; [exact F|eapply like_ok; exact L1]|]; rewrite chip127_app, Hc; apply like_chip; exact L1|].
  intros b s2 i2 (b2 & L2 & HQ). exists (b1 ++ b2). split; [apply Forall2_app; assumption|exact HQ].
Qed.
Lemma T_ret {A} c (a : A) s (Q : A -> d127 -> list bop -> Prop) : Q a s [] -> T c (ret a) s Q.
Proof. intros HQ h _ _. apply wp_ret. exists []. split; [constructor|exact HQ]. Qed.
Lemma T_gets {A} c (f : d127 -> A) s (Q : A -> d127 -> list bop -> Prop) : Q (f s) s [] -> T c (gets f) s Q.
Proof. intros HQ h _ _. apply wp_gets. exists []. split; [constructor|exact HQ]. Qed.
Lemma T_modify c f s (Q : unit -> d127 -> list bop -> Prop) : Q tt (f s) [] -> T c (modify f) s Q.
Proof. intros HQ h _ _. apply wp_modify. exists []. split; [constructor|exact HQ]. Qed.
Lemma T_emit c e s (Q : unit -> d127 -> list bop -> Prop) : quiet e = true -> Q tt s [BD e] -> T c (emit e) s Q.
Proof. intros He HQ h _ _. apply wp_emit; [exact He|]. exists [BD e]. split; [constructor; [split; [reflexivity|exact He]|constructor]|exact HQ]. Qed.
Lemma T_when c (b : bool) e s (Q : unit -> d127 -> list bop -> Prop) : quiet e = true -> Q tt s (if b then [BD e] else []) -> T c (when b (emit e)) s Q.
Proof. intros He HQ. destruct b; [apply T_emit|apply T_ret]; assumption. Qed.
Lemma T_deref c s o (Q : hal_opts -> d127 -> list bop -> Prop) : a_hal s = Some o -> Q o s [] -> T c deref s Q.
Proof. intros Ho HQ h _ _. apply (wp_deref7 _ _ _ o Ho). exists []. split; [constructor|exact HQ]. Qed.
Lemma T_get {A} c (l : list A) i v s (Q : A -> d127 -> list bop -> Prop) : peek l i = Some v -> Q v s [] -> T c (arr_get l i) s Q.
Proof. intros Hv HQ h _ _. apply (wp_get _ _ v); [exact Hv|]. exists []. split; [constructor|exact HQ]. Qed.
Lemma T_weaken {A} c (m : D127 A) s (Q Q' : A -> d127 -> list bop -> Prop) : T c m s Q -> (forall a s1 b, Q a s1 b -> Q' a s1 b) -> T c m s Q'.
Proof. intros Hm HW h F Hc. eapply wp_weaken; [apply Hm; [exact F|exact Hc]|]. intros a s1 i (b & L & HQ). exists b. auto. Qed.
Lemma lor128 a : 0 <= a < 128 -> Z.lor a 128 = 128 + a.
Proof.
  intro Ha. assert (X : Z.land a 128 = 0).
  { apply Z.bits_inj'. intros n Hn. rewrite Z.land_spec, Z.bits_0. change 128 with (2 ^ 7). destruct (Z.eq_dec n 7) as [->|Hd].
    - replace (Z.testbit a 7) with false; [reflexivity|]. symmetry. apply Z.testbit_false; [lia|]. rewrite Z.div_small by (cbn; lia). reflexivity.
    - rewrite Z.pow2_bits_false by lia. apply Bool.andb_false_r. }
  rewrite <- Z.lxor_lor, <- Z.add_nocarry_lxor by exact X. lia.
Qed.
Lemma T_write_regs c a vs s (Q : unit -> d127 -> list bop -> Prop) : on s -> 0 <= a < 128 -> Q tt s [BW a vs] -> T c (write_regs H a vs) s Q.
Proof. intros Ho Ha HQ h _ _. apply wp_write_regs; [exact Ho|]. intros x Hx. exists [BW a vs]. split; [|exact HQ]. repeat constructor; [rewrite <- lor128 by exact Ha; exact Hx|lia|lia]. Qed.
Lemma T_write_reg c a v s (Q : unit -> d127 -> list bop -> Prop) : on s -> 0 <= a < 128 -> Q tt s [BW a [v]] -> T c (write_reg H a v) s Q.
Proof. intros Ho Ha HQ h _ _. apply wp_write_reg; [exact Ho|]. intros x Hx. exists [BW a [v]]. split; [|exact HQ]. repeat constructor; [rewrite <- lor128 by exact Ha; exact Hx|lia|lia]. Qed.
Lemma T_read_reg c a s (Q : Z -> d127 -> list bop -> Prop) : on s -> 0 <= a < 128 ->
  (forall v, is_byte v -> (answers127 c0 H -> (a = 1 -> v / 8 = c_reg c 1 / 8 mod 32) /\ (a = 30 -> v = c_reg c 30 mod 256)) -> Q v s [BR a [v]]) -> T c (read_reg H a) s Q.
Proof.
  intros Ho Ha HQ h F Hc. apply wp_read_reg; [exact HH|exact Ho|]. intros b v Hv Bv. exists [BR a [v]]. split; [repeat constructor; lia|]. apply HQ; [exact Bv|].
  intro HA. specialize (HA (unparse h) h b 0 (transcript_unparse h F)). cbv zeta in HA. rewrite Hc in HA. split; intros ->; rewrite Hv; apply HA.
Qed.
Lemma T_read_array c a n s (Q : list Z -> d127 -> list bop -> Prop) : on s -> 0 <= a < 128 -> 0 <= n ->
  (forall vs, len vs = n -> bytes_ok vs -> Q vs s [BR a vs]) -> T c (read_array H a n) s Q.
Proof.
  intros Ho Ha Hn HQ h _ Hc. apply wp_read_array; [exact HH|exact Ho|exact Hn|]. intros b y rs Hr Hl Hb _. exists [BR a rs]. split; [repeat constructor; auto; lia|]. apply HQ; assumption.
Qed.
(** the value written to RegOpMode to enter [mode] *)
Definition om (v mode : Z) : Z := u8 (Z.lor (Z.land v (Z.lnot 7)) mode).
Lemma om_spec v mode : is_byte v -> 0 <= mode < 8 -> om v mode = 8 * (v / 8) + mode.
Proof.
  unfold is_byte, om, u8. intros Hv Hm.
  assert (E : Z.land v (Z.lnot 7) = 8 * (v / 8)).
  { change (Z.lnot 7) with (-8). assert (A : Z.land v (-8) = Z.ldiff v (Z.ones 3)) by reflexivity. rewrite A, Z.ldiff_ones_r by lia. rewrite Z.shiftl_mul_pow2, Z.shiftr_div_pow2 by lia. change (2 ^ 3) with 8. lia. }
  rewrite E. assert (L : Z.lor (8 * (v / 8)) mode = 8 * (v / 8) + mode).
  { rewrite <- Z.lxor_lor, <- Z.add_nocarry_lxor; try reflexivity.
    all: apply Z.bits_inj'; intros n Hn; rewrite Z.land_spec, Z.bits_0; replace (8 * (v / 8)) with (v / 8 * 2 ^ 3) by lia; rewrite Z.mul_pow2_bits by lia;
      destruct (Z_lt_le_dec n 3); [rewrite Z.testbit_neg_r by lia; reflexivity|];
      replace (Z.testbit mode n) with false; [apply Bool.andb_false_r|]; symmetry; apply Z.testbit_false; [lia|]; rewrite Z.div_small; [reflexivity|];
      split; [lia|]; apply Z.lt_le_trans with (2 ^ 3); [lia|]; apply Z.pow_le_mono_r; lia. }
  rewrite L. apply Z.mod_small. pose proof (Z.div_mod v 8 ltac:(lia)). pose proof (Z.mod_pos_bound v 8 ltac:(lia)). assert (v / 8 < 32) by (apply Z.div_lt_upper_bound; lia). lia.
Qed.
Lemma T_set_op_mode c mode s (Q : unit -> d127 -> list bop -> Prop) : on s -> 0 <= mode < 8 ->
  (forall v w, is_byte v -> is_byte w -> w = 8 * (v / 8) + mode -> (answers127 c0 H -> v / 8 = c_reg c 1 / 8 mod 32) -> Q tt s [BR 1 [v]; BW 1 [w]]) -> T c (set_op_mode H mode) s Q.
Proof.
  intros Ho Hm HQ. unfold set_op_mode. apply T_bind, T_read_reg; [exact Ho|unfold REG_OP_MODE; lia|]. intros v Bv Hv. apply T_write_reg; [exact Ho|unfold REG_OP_MODE; lia|].
  fold (om v mode). rewrite (om_spec v mode Bv Hm). apply HQ; [exact Bv| |reflexivity|intro HA; apply Hv; [exact HA|reflexivity]].
  unfold is_byte in *. assert (v / 8 < 32) by (apply Z.div_lt_upper_bound; lia). assert (0 <= v / 8) by (apply Z.div_pos; lia). lia.
Qed.

(** ** The calls, one by one *)
Local Notation ans c v := (answers127 c0 H -> v / 8 = c_reg c 1 / 8 mod 32).
Definition polls (a : Z) (rs : list Z) : list bop := flat_map (fun r => [BD (HDelay 1000); BR a [r]]) rs.
Definition opt (b : bool) (e : hev) : list bop := if b then [BD e] else [].
(** the mode change [RegOpMode := mode] made in chip state [c] *)
Definition mode_to (c : c127) (mode : Z) (bs : list bop) : Prop :=
  exists v w, is_byte v /\ is_byte w /\ w = 8 * (v / 8) + mode /\ ans c v /\ bs = [BR 1 [v]; BW 1 [w]].
Definition frf (f : Z) : Z := Z.shiftl f 19 / 32000000.
Definition frf_bytes (f : Z) : list Z := [Z.land (Z.shiftr (frf f) 16) 255; Z.land (Z.shiftr (frf f) 8) 255; Z.land (frf f) 255].
Definition pa_of (p : Z) : Z :=
  if p <=? 14 then Z.lor (Z.lor 0 (Z.shiftl (if p <? 0 then 0 else 7) 4)) (Z.land (u8 (if p <? 0 then s8 (p + 4) else p)) 15)
  else Z.lor 128 (Z.land (u8 (p - 2)) 15).
Definition conf1 (p : params) : Z := let c := Z.lor (nth (Z.to_nat (p_bw p)) bw_table 0) (nth (Z.to_nat (p_cr p)) cr_table 0) in if p_implicit_header p then Z.lor c 1 else c.
Definition conf2 (p : params) : Z := let c := nth (Z.to_nat (p_sf p)) sf_table 0 in if p_crc_on p then Z.lor c 4 else c.
Definition conf3 (p : params) : Z := Z.lor (if SF_11 <=? p_sf p then Z.lor 0 8 else 0) 4.
Definition init_head (o : hal_opts) : list bop :=
  [BD (HReset true); BD (HDelay 150); BD (HReset false); BD (HDelay 6000)] ++ opt (has_io_deinit o) HIoDeinit.
Definition init_tail : list bop := [BW 1 [0]; BW 1 [128]; BW 57 [52]; BW 10 [8]; BW 12 [35]].
Definition irq_flags (f : Z) : Z * Z :=
  (Z.lor (Z.lor (Z.lor (if Z.land f 8 =? 0 then 0 else 8) (if Z.land f 64 =? 0 then 0 else 64)) (if Z.land f 128 =? 0 then 0 else 128)) (if Z.land f 32 =? 0 then 0 else 32),
   Z.lor (Z.lor (Z.lor (if Z.land f 8 =? 0 then 0 else IRQF_TX_DONE) (if Z.land f 64 =? 0 then 0 else IRQF_RX_DONE)) (if Z.land f 128 =? 0 then 0 else IRQF_RX_TIMEOUT)) (if Z.land f 32 =? 0 then 0 else IRQF_CRC_ERROR)).
Fixpoint bits (i : Z) (rs : list Z) : Z := match rs with [] => 0 | r :: rs' => r mod 2 * 2 ^ i + bits (i + 1) rs' end.

Definition shape (c : c127) (s : d127) (o : rop) (v : rval) (s' : d127) (bs : list bop) : Prop :=
  let with_hal P := exists hal, a_hal s = Some hal /\ P hal in
  match o with
  | PInit hal _ => s' = Mk_d127 (Some hal) (a_rssi_offset s) (a_handler s) /\
      exists ver, is_byte ver /\
      ((ver <> 18 /\ v = RvBool false /\ bs = init_head hal ++ [BR 66 [ver]]) \/
       (ver = 18 /\ exists x w rs ok, is_byte x /\ (is_byte w /\ w = Z.lor x 64) /\ v = RvBool ok /\ bytes_ok rs /\ 0 < len rs <= 255 /\ (ok = true <-> len rs < 255) /\
          (forall i r, nth_error rs i = Some r -> (S i < length rs)%nat -> Z.land r 32 <> 0) /\ (ok = true -> Z.land (last rs 0) 32 = 0) /\
          bs = init_head hal ++ [BR 66 [ver]; BW 6 (frf_bytes 868800000); BR 59 [x]; BW 59 [w]] ++ polls 59 rs ++ if ok then init_tail else []))
  | PSleep => s' = s /\ v = RvUnit /\ with_hal (fun hal => exists m, mode_to c 0 m /\ bs = m ++ opt (has_io_deinit hal) HIoDeinit)
  | PFreq f => s' = s /\ v = RvUnit /\ bs = [BW 6 (frf_bytes f)]
  | PPower p =>
      if (p <? -4) || (17 <? p) then s' = s /\ v = RvBool false /\ bs = []
      else s' = Mk_d127 (a_hal s) (if p <=? 14 then -164 else -157) (a_handler s) /\ v = RvBool true /\ bs = [BW 9 [pa_of p]]
  | PPublic b => s' = s /\ v = RvUnit /\ bs = [BW 57 [if b then 52 else 20]]
  | PSetup p => s' = s /\ v = RvUnit /\ with_hal (fun hal => exists m, mode_to c 1 m /\
      bs = m ++ [BW 29 [conf1 p]; BW 30 [conf2 p]; BW 38 [conf3 p]; BW 51 [if p_inverted_iq p then 102 else 39]; BW 59 [if p_inverted_iq p then 25 else 29]] ++ opt (has_io_init hal) HIoInit)
  | PTx buf => s' = s /\ v = RvUnit /\ with_hal (fun hal =>
      let pre := [BW 14 [0]; BW 13 [0]; BW 0 buf; BW 34 [len buf]; BW 17 [247]; BW 64 [64]] ++ opt (has_ant hal) (HAnt false) in
      exists m, mode_to (bchips c pre) 3 m /\ bs = pre ++ m)
  | PRx n symb t => s' = s /\ v = RvUnit /\ with_hal (fun hal => exists x, is_byte x /\ (answers127 c0 H -> x = c_reg c 30 mod 256) /\
      let pre := [BR 30 [x]; BW 30 [Z.lor (Z.land x (Z.lnot 3)) (Z.land (Z.shiftr symb 8) 3)]; BW 31 [Z.land symb 255]; BW 14 [0]; BW 13 [0]; BW 35 [n];
        BW 54 [2]; BW 58 [100]; BW 17 [31]; BW 64 [2]] ++ opt (has_ant hal) (HAnt true) in
      exists m, mode_to (bchips c pre) (if t =? 0 then 6 else 5) m /\ bs = pre ++ m)
  | PRead cap => s' = s /\ exists ptr n data snr rssi, is_byte ptr /\ is_byte n /\ bytes_ok data /\ len data = Z.min cap n /\ is_byte snr /\ is_byte rssi /\
      v = RvPkt (Mk_rxpkt data (s16 (a_rssi_offset s + rssi)) (Z.quot (s8 snr) 4)) /\
      bs = [BR 16 [ptr]; BW 13 [ptr]; BR 19 [n]] ++ (if 0 <? Z.min cap n then [BR 0 data] else []) ++ [BR 25 [snr]; BR 26 [rssi]]
  | PRand => s' = s /\ exists m1 rs m2, mode_to (bchips c [BW 17 [255]]) 5 m1 /\ mode_to (bchips c ([BW 17 [255]] ++ m1)) 0 m2 /\
      length rs = 32%nat /\ bytes_ok rs /\ v = RvNum (bits 0 rs) /\ bs = [BW 17 [255]] ++ m1 ++ polls 44 rs ++ m2
  | PIrq => s' = s /\ exists f, is_byte f /\ v = RvNum (snd (irq_flags f)) /\ bs = [BR 18 [f]; BW 18 [fst (irq_flags f)]] ++ opt (a_handler s) (HUser (snd (irq_flags f)))
  | PHandler b => s' = Mk_d127 (a_hal s) (a_rssi_offset s) b /\ v = RvUnit /\ bs = []
  end.
Lemma T_mode c mode s (Q : unit -> d127 -> list bop -> Prop) : on s -> 0 <= mode < 8 -> (forall bs, mode_to c mode bs -> Q tt s bs) -> T c (set_op_mode H mode) s Q.
Proof. intros Ho Hm HQ. apply T_set_op_mode; [exact Ho|exact Hm|]. intros v w Bv Bw Hw Ha. apply HQ. exists v, w. auto. Qed.
Lemma polls_chip a rs c : bchips c (polls a rs) = c.
Proof. induction rs as [|r rs IH]; [reflexivity|]. unfold polls in *. cbn [flat_map app]. unfold bchips in *. cbn [fold_left bchip]. exact IH. Qed.
Lemma T_calib fuel : forall t c s (Q : bool -> d127 -> list bop -> Prop), on s -> 0 < t < 256 -> t <= Z.of_nat fuel ->
  (forall rs ok, bytes_ok rs -> 0 < len rs <= t -> (ok = true <-> len rs < t) ->
     (forall i r, nth_error rs i = Some r -> (S i < length rs)%nat -> Z.land r 32 <> 0) -> (ok = true -> Z.land (last rs 0) 32 = 0) -> Q ok s (polls 59 rs)) ->
  T c (calib_loop H fuel t) s Q.
Proof.
  induction fuel as [|n IH]; intros t c s Q Ho Ht Hf HQ; [lia|]. cbn [calib_loop].
  apply T_bind, T_emit; [reflexivity|]. apply T_bind, T_read_reg; [exact Ho|unfold REG_IMAGE_CAL; lia|]. intros v Bv _.
  replace (u8 (t - 1)) with (t - 1) by (unfold u8; rewrite Z.mod_small; lia).
  destruct (Z.eq_dec (t - 1) 0) as [E|E]; [replace (t - 1 =? 0) with true by lia|replace (t - 1 =? 0) with false by lia]; cbn [negb andb].
  - apply T_ret. cbn [app]. apply (HQ [v] false).
    + constructor; [exact Bv|constructor].
    + cbn; lia.
    + split; [discriminate|]. intro X. cbn in X. lia.
    + intros i r _ Hi. cbn in Hi. lia.
    + discriminate.
  - destruct (Z.land v 32 =? 0) eqn:E2; cbn [negb].
    + apply T_ret. cbn [app]. apply (HQ [v] true).
      * constructor; [exact Bv|constructor].
      * cbn; lia.
      * split; [|reflexivity]. intros _. cbn. lia.
      * intros i r _ Hi. cbn in Hi. lia.
      * intros _. cbn. lia.
    + apply IH; [exact Ho|lia|lia|]. intros rs ok Brs Hl Hok Hn Hla. cbn [app]. apply (HQ (v :: rs) ok).
      * constructor; assumption.
      * rewrite len_cons. lia.
      * rewrite len_cons, Hok. lia.
      * intros [|i] r Hr Hi; cbn in Hr, Hi; [injection Hr as <-; lia|]. apply (Hn i); [exact Hr|lia].
      * intro X. destruct rs as [|r rs]; [cbn in Hl; lia|]. apply Hla, X.
Qed.
Lemma land1 r : Z.land r 1 = r mod 2. Proof. change 1 with (Z.ones 1) at 1. apply Z.land_ones. lia. Qed.
Lemma lor_high a b i : 0 <= i -> 0 <= a < 2 ^ i -> 0 <= b -> Z.lor a (b * 2 ^ i) = a + b * 2 ^ i.
Proof.
  intros Hi Ha Hb. assert (X : Z.land a (b * 2 ^ i) = 0).
  { apply Z.bits_inj'. intros n Hn. rewrite Z.land_spec, Z.bits_0, Z.mul_pow2_bits by lia. destruct (Z_lt_le_dec n i); [rewrite (Z.testbit_neg_r b) by lia; apply Bool.andb_false_r|].
    replace (Z.testbit a n) with false; [reflexivity|]. symmetry. apply Z.testbit_false; [lia|]. rewrite Z.div_small; [reflexivity|]. split; [lia|]. apply Z.lt_le_trans with (2 ^ i); [lia|]. apply Z.pow_le_mono_r; lia. }
  rewrite <- Z.lxor_lor, <- Z.add_nocarry_lxor by exact X. reflexivity.
Qed.
Lemma T_rand n : forall i acc c s (Q : Z -> d127 -> list bop -> Prop), on s -> h_strict_shl H = false -> 0 <= i -> i + Z.of_nat n <= 32 -> 0 <= acc < 2 ^ i ->
  (forall rs, length rs = n -> bytes_ok rs -> Q (acc + bits i rs) s (polls 44 rs)) -> T c (rand_loop H n i acc) s Q.
Proof.
  induction n as [|n IH]; intros i acc c s Q Ho Hs Hi Hn Hacc HQ; cbn [rand_loop].
  - apply T_ret. specialize (HQ [] eq_refl). cbn [bits polls flat_map] in HQ. rewrite Z.add_0_r in HQ. apply HQ. constructor.
  - apply T_bind, T_emit; [reflexivity|]. apply T_bind, T_read_reg; [exact Ho|unfold REG_RSSI_WIDEBAND; lia|]. intros v Bv _. rewrite Hs. cbn [andb].
    apply T_bind, T_ret. rewrite land1, Z.shiftl_mul_pow2, lor_high by (try assumption; apply Z.mod_pos_bound; lia).
    assert (Hm : 0 <= v mod 2 < 2) by (apply Z.mod_pos_bound; lia).
    assert (Hp : 2 ^ (i + 1) = 2 * 2 ^ i) by (rewrite Z.pow_add_r by lia; lia).
    assert (Hp2 : 2 ^ (i + 1) <= 4294967296) by (change 4294967296 with (2 ^ 32); apply Z.pow_le_mono_r; lia).
    assert (Hm2 : 0 <= acc + v mod 2 * 2 ^ i < 2 ^ (i + 1)) by nia.
    assert (Hu : u32 (acc + v mod 2 * 2 ^ i) = acc + v mod 2 * 2 ^ i) by (apply Z.mod_small; lia). rewrite Hu.
    apply IH; [exact Ho|exact Hs|lia|lia|exact Hm2|]. intros rs Hl Hb. cbn [app].
    replace (acc + v mod 2 * 2 ^ i + bits (i + 1) rs) with (acc + bits i (v :: rs)) by (cbn [bits]; lia).
    apply (HQ (v :: rs)); [cbn; lia|]. constructor; assumption.
Qed.
Lemma T_as_b c (m : D127 bool) s Q : T c m s (fun b s1 bs => Q (RvBool b) s1 bs) -> T c (as_b m) s Q.
Proof. intro X. apply T_bind. eapply T_weaken; [exact X|]. intros a s1 b HQ. apply T_ret. rewrite app_nil_r. exact HQ. Qed.
Lemma T_as_u c (m : D127 unit) s Q : T c m s (fun _ s1 bs => Q RvUnit s1 bs) -> T c (as_u m) s Q.
Proof. intro X. apply T_bind. eapply T_weaken; [exact X|]. intros a s1 b HQ. apply T_ret. rewrite app_nil_r. exact HQ. Qed.
Lemma T_as_n c (m : D127 Z) s Q : T c m s (fun n s1 bs => Q (RvNum n) s1 bs) -> T c (as_n m) s Q.
Proof. intro X. apply T_bind. eapply T_weaken; [exact X|]. intros a s1 b HQ. apply T_ret. rewrite app_nil_r. exact HQ. Qed.
Lemma T_as_p c (m : D127 rxpkt) s Q : T c m s (fun n s1 bs => Q (RvPkt n) s1 bs) -> T c (as_p m) s Q.
Proof. intro X. apply T_bind. eapply T_weaken; [exact X|]. intros a s1 b HQ. apply T_ret. rewrite app_nil_r. exact HQ. Qed.
Ltac reg := solve [ lia | cbv; split; [discriminate|reflexivity] | exact (conj (Z.le_refl 0) eq_refl) ].
Ltac wr := first [apply T_write_reg | apply T_write_regs]; [assumption|reg|].
Ltac tn := rewrite ?app_nil_r, <- ?app_assoc; cbn [app].
Lemma sh_init c s o opts : T c (call127 H (PInit o opts)) s (shape c s (PInit o opts)).
Proof.
  apply T_as_b. unfold sx127x_init. apply T_bind, T_modify. set (s1 := Mk_d127 _ _ _).
  assert (Ho : on s1) by (exists o; reflexivity).
  do 4 (apply T_bind, T_emit; [reflexivity|]). apply T_bind, T_when; [reflexivity|].
  apply T_bind, T_read_reg; [exact Ho|reg|]. intros ver Bver _.
  destruct (ver =? 18) eqn:E; cbn [negb].
  - apply T_bind. unfold rx_calibartion, sx127x_set_freq. apply T_bind. wr. apply T_bind, T_read_reg; [exact Ho|reg|]. intros x Bx _.
    apply T_bind. wr. apply T_calib; [exact Ho|lia|lia|]. intros rs ok Brs Hl Hok Hn Hla.
    assert (Bw : is_byte (Z.lor x 64)) by (apply lor_byte; [exact Bx|unfold is_byte; lia]).
    destruct ok; cbn [negb].
    + do 3 (apply T_bind; wr). unfold sx127x_set_public_network. do 2 (apply T_bind; wr). apply T_ret. cbn [shape].
      split; [reflexivity|]. exists ver. split; [exact Bver|]. right. split; [lia|]. exists x, (Z.lor x 64), rs, true.
      split; [exact Bx|]. split; [split; [exact Bw|reflexivity]|]. split; [reflexivity|]. split; [exact Brs|]. split; [exact Hl|]. split; [exact Hok|]. split; [exact Hn|]. split; [exact Hla|]. unfold init_head, opt, init_tail. cbn [app]. destruct (has_io_deinit o); cbn [app]; tn; reflexivity.
    + apply T_ret. cbn [shape]. split; [reflexivity|]. exists ver. split; [exact Bver|]. right. split; [lia|]. exists x, (Z.lor x 64), rs, false.
      split; [exact Bx|]. split; [split; [exact Bw|reflexivity]|]. split; [reflexivity|]. split; [exact Brs|]. split; [exact Hl|]. split; [exact Hok|]. split; [exact Hn|]. split; [exact Hla|]. unfold init_head, opt, init_tail. cbn [app]. destruct (has_io_deinit o); cbn [app]; tn; reflexivity.
  - apply T_ret. cbn [shape]. split; [reflexivity|]. exists ver. split; [exact Bver|]. left. split; [lia|]. split; [reflexivity|]. unfold init_head, opt. destruct (has_io_deinit o); reflexivity.
Qed.
Lemma sh_sleep c s o : a_hal s = Some o -> T c (call127 H PSleep) s (shape c s PSleep).
Proof.
  intro Ho. assert (Ho' : on s) by eauto. apply T_as_u. unfold sx127x_sleep. apply T_bind, T_mode; [exact Ho'|reg|]. intros m Hm.
  apply T_bind, (T_deref _ _ o _ Ho), T_when; [reflexivity|]. cbn [shape app]. repeat split. exists o. split; [exact Ho|]. exists m. split; [exact Hm|]. reflexivity.
Qed.
Lemma sh_freq c s f : on s -> T c (call127 H (PFreq f)) s (shape c s (PFreq f)).
Proof. intro Ho. apply T_as_u. unfold sx127x_set_freq. wr. repeat split. Qed.
Lemma sh_power c s p : on s -> T c (call127 H (PPower p)) s (shape c s (PPower p)).
Proof.
  intro Ho. apply T_as_b. unfold sx127x_set_power. cbn [shape]. destruct ((p <? -4) || (17 <? p)); [apply T_ret; repeat split|].
  unfold pa_of. destruct (p <=? 14).
  - destruct (p <? 0); apply T_bind, T_bind, T_modify; apply T_write_reg; try exact Ho; try reg; apply T_ret; repeat split.
  - apply T_bind, T_bind, T_modify; apply T_write_reg; try exact Ho; try reg; apply T_ret; repeat split.
Qed.
Lemma sh_public c s b : on s -> T c (call127 H (PPublic b)) s (shape c s (PPublic b)).
Proof. intro Ho. apply T_as_u. unfold sx127x_set_public_network. destruct b; wr; repeat split. Qed.
Lemma peek_nth (l : list Z) i : 0 <= i < len l -> peek l i = Some (nth (Z.to_nat i) l 0).
Proof. intro Hi. unfold peek. replace (i <? 0) with false by lia. apply nth_error_nth'. unfold len in Hi. lia. Qed.
Lemma sh_setup c s p o : a_hal s = Some o -> params_wf p -> T c (call127 H (PSetup p)) s (shape c s (PSetup p)).
Proof.
  intros Ho (W1 & W2 & W3 & _). assert (Ho' : on s) by eauto. apply T_as_u. unfold sx127x_setup. apply T_bind, T_mode; [exact Ho'|reg|]. intros m Hm.
  eapply T_bind, T_get; [apply peek_nth; cbn; lia|]. eapply T_bind, T_get; [apply peek_nth; cbn; lia|].
  unfold lora_set_modem_conf1. apply T_bind. wr. eapply T_bind, T_get; [apply peek_nth; cbn; lia|].
  unfold lora_set_modem_conf2. apply T_bind. wr. cbv zeta. unfold lora_set_modem_conf3. apply T_bind. wr.
  apply T_bind. unfold set_inverted_iq. cbn [shape]. destruct (p_inverted_iq p); apply T_bind; wr; wr;
    apply T_bind, (T_deref _ _ o _ Ho), T_when; try reflexivity; repeat split; exists o; (split; [exact Ho|]); exists m; (split; [exact Hm|]); reflexivity.
Qed.
Lemma sh_tx c s buf o : a_hal s = Some o -> T c (call127 H (PTx buf)) s (shape c s (PTx buf)).
Proof.
  intros Ho. assert (Ho' : on s) by eauto. apply T_as_u. unfold sx127x_tx. do 6 (apply T_bind; wr). apply T_bind, (T_deref _ _ o _ Ho). apply T_bind, T_when; [reflexivity|].
  apply T_mode; [exact Ho'|reg|]. intros m Hm. repeat split. exists o. split; [exact Ho|]. exists m. unfold opt. split; [|destruct (has_ant o); reflexivity].
  rewrite <- ?bchips_app in Hm. destruct (has_ant o); exact Hm.
Qed.
Lemma sh_rx c s n symb t o : a_hal s = Some o -> T c (call127 H (PRx n symb t)) s (shape c s (PRx n symb t)).
Proof.
  intros Ho. assert (Ho' : on s) by eauto. apply T_as_u. unfold sx127x_rx. apply T_bind, T_read_reg; [exact Ho'|reg|]. intros x Bx Hx. do 9 (apply T_bind; wr).
  apply T_bind, (T_deref _ _ o _ Ho). apply T_bind, T_when; [reflexivity|]. cbn [shape].
  destruct (t =? 0); (apply T_mode; [exact Ho'|reg|]); intros m Hm; repeat split; exists o; (split; [exact Ho|]); exists x;
    (split; [exact Bx|]); (split; [intro HA; apply Hx; [exact HA|reflexivity]|]); exists m; unfold opt; rewrite <- ?bchips_app in Hm; destruct (has_ant o); (split; [exact Hm|reflexivity]).
Qed.
Lemma sh_read c s cap : on s -> is_byte cap -> T c (call127 H (PRead cap)) s (shape c s (PRead cap)).
Proof.
  intros Ho Hc. apply T_as_p. unfold sx127x_read_packet. apply T_bind, T_read_reg; [exact Ho|reg|]. intros ptr Bp _. apply T_bind. wr. apply T_bind, T_read_reg; [exact Ho|reg|]. intros n Bn _.
  replace (if cap <? n then cap else n) with (Z.min cap n) by (destruct (cap <? n) eqn:E; lia). cbv zeta. apply T_bind. unfold is_byte in Hc, Bn.
  destruct (0 <? Z.min cap n) eqn:E; [apply T_read_array; [exact Ho|reg|lia|]; intros data Hl Hb|apply T_ret];
    (apply T_bind, T_read_reg; [exact Ho|reg|]; intros snr Bs _); (apply T_bind, T_read_reg; [exact Ho|reg|]; intros rssi Br _); apply T_bind, T_gets, T_ret; (split; [reflexivity|]).
  - exists ptr, n, data, snr, rssi. rewrite E. repeat (split; [first [assumption|reflexivity]|]). reflexivity.
  - exists ptr, n, [], snr, rssi. rewrite E. repeat (split; [first [assumption|reflexivity|constructor|cbn; lia]|]). reflexivity.
Qed.
Lemma sh_rand c s : on s -> h_strict_shl H = false -> T c (call127 H PRand) s (shape c s PRand).
Proof.
  intros Ho Hs. apply T_as_n. unfold sx127x_rand. apply T_bind. wr. apply T_bind, T_mode; [exact Ho|reg|]. intros m1 Hm1.
  apply T_bind, T_rand; [exact Ho|exact Hs|lia|cbn; lia|cbn; lia|]. intros rs Hl Hb. apply T_bind, T_mode; [exact Ho|reg|]. intros m2 Hm2. apply T_ret.
  rewrite polls_chip, <- bchips_app in Hm2. split; [reflexivity|]. exists m1, rs, m2. repeat (split; [assumption|]). split; [reflexivity|]. tn. reflexivity.
Qed.
Lemma sh_irq c s : on s -> T c (call127 H PIrq) s (shape c s PIrq).
Proof.
  intros Ho. apply T_as_n. unfold sx127x_irq_handler. apply T_bind, T_read_reg; [exact Ho|reg|]. intros f Bf _.
  match goal with |- T _ ?m _ _ => assert (X : m = (write_reg H REG_IRQ_FLAGS (fst (irq_flags f)) ;;; u <- gets a_handler ;; when u (emit (HUser (snd (irq_flags f)))) ;;; ret (snd (irq_flags f)))) end.
  { unfold irq_flags. destruct (Z.land f 8 =? 0), (Z.land f 64 =? 0), (Z.land f 128 =? 0), (Z.land f 32 =? 0); reflexivity. }
  rewrite X. apply T_bind. wr. apply T_bind, T_gets. apply T_bind, T_when; [reflexivity|]. apply T_ret. split; [reflexivity|]. exists f. split; [exact Bf|]. split; [reflexivity|]. tn. reflexivity.
Qed.
Theorem call127_shape c s o : rop_wf o -> ((exists hal d, o = PInit hal d) \/ on s) -> (o = PRand -> h_strict_shl H = false) -> T c (call127 H o) s (shape c s o).
Proof.
  intros W Hi Hr. destruct o as [hal d| | | | | |buf|n symb t|cap| | |b].
  1: apply sh_init. 11: { apply T_as_u, T_modify. repeat split. }
  all: destruct Hi as [(? & ? & ?)|Ho]; [discriminate|]; pose proof Ho as [o Ho'].
  - apply (sh_sleep _ _ o Ho').
  - apply sh_freq; assumption.
  - apply sh_power; assumption.
  - apply sh_public; assumption.
  - apply (sh_setup _ _ _ o Ho' W).
  - apply (sh_tx _ _ _ o Ho').
  - apply (sh_rx _ _ _ _ _ o Ho').
  - apply sh_read; assumption.
  - apply sh_rand; auto.
  - apply sh_irq; assumption.
Qed.
End T.
