(** LWant6.v -- src/device/sx126x.c: the chip holds what was asked for *)
From Verif Require Export LRun6.

Definition word (l : list Z) : Z := 16777216 * nz l 0 + 65536 * nz l 1 + 256 * nz l 2 + nz l 3.
Definition mod_of (p : params) : list Z := [nth (Z.to_nat (p_sf p)) sf_table 0; nth (Z.to_nat (p_bw p)) bw_table 0; nth (Z.to_nat (p_cr p)) cr_table 0; if SF_11 <=? p_sf p then 1 else 0].
Definition K (w : want) (s : d126) (c : c126) : Prop :=
  (w_up w = true -> k_type c = 1 /\ k_reg c 1856 = (if w_pub w then 52 else 20) /\ k_reg c 1857 = (if w_pub w then 68 else 36)) /\
  (forall f, w_freq w = Some f -> 0 <= f < 4294967296 /\ k_freq c = word (frf_bytes f)) /\
  (forall p, w_dbm w = Some p -> dbm126 (k_pa c) (k_tx c) (k_reg c 2264) = Some (10 * p)) /\
  (forall p, w_par w = Some p -> params_wf p /\ b_params s = p /\ k_mod c = mod_of p).
Definition kept (c c' : c126) : Prop :=
  k_type c' = k_type c /\ k_freq c' = k_freq c /\ k_pa c' = k_pa c /\ k_tx c' = k_tx c /\ k_mod c' = k_mod c /\ (forall a, a <> 1846 -> k_reg c' a = k_reg c a).
Lemma kept_refl c : kept c c. Proof. repeat split. Qed.
Lemma kept_trans a b c : kept a b -> kept b c -> kept a c.
Proof. intros (A1 & A2 & A3 & A4 & A5 & A6) (B1 & B2 & B3 & B4 & B5 & B6). repeat split; try congruence. intros x Hx. rewrite B6, A6 by exact Hx. reflexivity. Qed.
Lemma K_keep w w' s s' c c' : K w s c -> kept c c' -> b_params s' = b_params s -> w_up w' = w_up w -> w_freq w' = w_freq w -> w_dbm w' = w_dbm w -> w_par w' = w_par w -> w_pub w' = w_pub w -> K w' s' c'.
Proof.
  intros (K1 & K2 & K3 & K4) (A1 & A2 & A3 & A4 & A5 & A6) P U F D R B. unfold K. rewrite U, F, D, R, B, P, A1, A2, A3, A4, A5, !A6 by lia. auto.
Qed.
Lemma pkt_chip c z p g n : bchips c (pkt z p g n) =
  Mk_c126 (k_type c) (k_freq c) (k_pa c) (k_tx c) (k_mod c) [u8 (Z.shiftr (p_preamble_len p) 8); Z.land (p_preamble_len p) 255; b2z (p_implicit_header p); n; b2z (p_crc_on p); b2z (p_inverted_iq p)]
    (k_base c) (k_symb c) (put (k_reg c) 1846 (if p_inverted_iq p then u8 (Z.land g (Z.lnot 4)) else u8 (Z.lor g 4))) (k_buf c) (k_acts c).
Proof. reflexivity. Qed.
Lemma put_other f a v x : x <> a -> put f a v x = f x. Proof. intro Hx. unfold put. destruct (x =? a) eqn:E; [lia|reflexivity]. Qed.
Lemma pkt_kept c z p g n : kept c (bchips c (pkt z p g n)) /\ k_acts (bchips c (pkt z p g n)) = k_acts c.
Proof. rewrite pkt_chip. split; [|reflexivity]. repeat split. intros a Ha. cbn [k_reg]. apply put_other, Ha. Qed.
Definition rx_time (t : Z) : Z := let t := if negb (t =? 0) && negb (t =? 16777215) then u32 (Z.shiftl t 6) else t in 65536 * u8 (Z.shiftr t 16) + 256 * u8 (Z.shiftr t 8) + u8 t.
Definition rx_mode (t : Z) : lmode := if t =? 0 then Single else if t =? 16777215 then Continuous else Timed t.
Lemma rx_chip c hal symb t : bchips c (rx_tail hal symb t) =
  Mk_c126 (k_type c) (k_freq c) (k_pa c) (k_tx c) (k_mod c) (k_pkt c) 0 (u8 symb) (k_reg c) (k_buf c)
    (k_acts c ++ [Listen (modem126 c) (rx_mode (rx_time t)) (u8 symb) (nz (k_pkt c) 3)]).
Proof. unfold rx_tail, opt. destruct (has_ant hal); reflexivity. Qed.
Lemma rx_kept c hal symb t : kept c (bchips c (rx_tail hal symb t)).
Proof. rewrite rx_chip. repeat split. Qed.
Lemma sleep_chip c z hal : bchips c (sleep_ops z hal) = Mk_c126 (k_type c) (k_freq c) (k_pa c) (k_tx c) (k_mod c) (k_pkt c) (k_base c) (k_symb c) (k_reg c) (fun _ => -1) (k_acts c).
Proof. unfold sleep_ops, opt. destruct (has_io_deinit hal); reflexivity. Qed.
Definition tx_ops (hal : hal_opts) (buf : list Z) : list cop := [CW false [143; 0; 0]; CW false (14 :: 0 :: buf)] ++ opt (has_ant hal) (HAnt false) ++ [CW false [131; 0; 0; 0]].
Lemma tx_chip c hal buf : bchips c (tx_ops hal buf) =
  Mk_c126 (k_type c) (k_freq c) (k_pa c) (k_tx c) (k_mod c) (k_pkt c) 0 (k_symb c) (k_reg c) (fill256 (k_buf c) 0 buf)
    (k_acts c ++ [Air (modem126 c) (mem (fill256 (k_buf c) 0 buf) 0 (nz (k_pkt c) 3))]).
Proof. unfold tx_ops, opt. destruct (has_ant hal); reflexivity. Qed.
Lemma tx_kept c hal buf : kept c (bchips c (tx_ops hal buf)).
Proof. rewrite tx_chip. repeat split. Qed.

Lemma all_below (P : Z -> bool) n : forallb (fun k => P (Z.of_nat k)) (seq 0 n) = true -> forall x, 0 <= x < Z.of_nat n -> P x = true.
Proof. intros HF x Hx. rewrite forallb_forall in HF. specialize (HF (Z.to_nat x)). rewrite Z2Nat.id in HF by lia. apply HF. apply in_seq. lia. Qed.
Lemma land255 x : Z.land x 255 = x mod 256. Proof. change 255 with (Z.ones 8). apply Z.land_ones. lia. Qed.
Lemma dbm_hp p g : -9 <= p <= 22 -> is_byte g -> dbm126 [4; 7; 0; 1] (u8 p) (Z.lor g 30) = Some (10 * p).
Proof.
  intros Hp Hg. assert (G : Z.lor g 30 / 2 mod 16 = 15).
  { pose (P := fun g => Z.lor g 30 / 2 mod 16 =? 15). assert (A : P g = true) by (apply (all_below P 256); [vm_compute; reflexivity|exact Hg]). unfold P in A. lia. }
  unfold dbm126. rewrite G. pose (P := fun x => match (let q := if u8 (x - 9) <? 128 then u8 (x - 9) else u8 (x - 9) - 256 in if (-9 <=? q) && (q <=? 22) && (15 =? 15) then Some (10 * q) else None) with Some d => d =? 10 * (x - 9) | None => false end).
  assert (A : P (p + 9) = true) by (apply (all_below P 32); [vm_compute; reflexivity|lia]). unfold P in A. replace (p + 9 - 9) with p in A by lia. cbv zeta in *.
  destruct ((-9 <=? _) && _ && _); [f_equal; lia|discriminate].
Qed.
Lemma dbm_lp p g : -17 <= p <= 14 -> dbm126 [4; 0; 1; 1] (u8 p) g = Some (10 * p).
Proof.
  intros Hp. unfold dbm126. pose (P := fun x => match (let q := if u8 (x - 17) <? 128 then u8 (x - 17) else u8 (x - 17) - 256 in if (-17 <=? q) && (q <=? 14) then Some (10 * q) else None) with Some d => d =? 10 * (x - 17) | None => false end).
  assert (A : P (p + 17) = true) by (apply (all_below P 32); [vm_compute; reflexivity|lia]). unfold P in A. replace (p + 17 - 17) with p in A by lia. cbv zeta in *.
  destruct ((-17 <=? _) && _); [f_equal; lia|discriminate].
Qed.
Lemma power_chip s p v s' bs c : shape s (PPower p) v s' bs -> v = RvBool true ->
  let c' := bchips c bs in
  dbm126 (k_pa c') (k_tx c') (k_reg c' 2264) = Some (10 * p) /\ k_type c' = k_type c /\ k_freq c' = k_freq c /\ k_mod c' = k_mod c /\ (forall a, ~ In a [2264; 2279] -> k_reg c' a = k_reg c a).
Proof.
  intros (d & Hd & Sh) Hv. cbv zeta. unfold in_range in Sh. destruct (is_hp d).
  - destruct ((-9 <=? p) && (p <=? 22)) eqn:R; destruct Sh as (Ev & -> & Sh); [|congruence]. destruct Sh as (g & Bg & ->). split; [apply dbm_hp; [lia|exact Bg]|]. repeat split.
    intros a Ha. cbn in Ha. cbn. rewrite !put_other by lia. reflexivity.
  - destruct ((-17 <=? p) && (p <=? 15)) eqn:R; destruct Sh as (Ev & -> & ->); [|congruence]. destruct (p =? 15) eqn:E15.
    + split; [replace p with 15 by lia; reflexivity|]. repeat split. intros a Ha. cbn in Ha. cbn. rewrite put_other by lia. reflexivity.
    + split; [apply dbm_lp; lia|]. repeat split. intros a Ha. cbn in Ha. cbn. rewrite put_other by lia. reflexivity.
Qed.
Lemma K_init w s c hal d v s' bs : shape s (PInit hal d) v s' bs -> K (see w (PInit hal d) v) s' (bchips c bs).
Proof.
  intros (e0 & e1 & _ & _ & -> & -> & ->). unfold K. cbn [see w_up w_freq w_dbm w_par w_pub]. split; [|repeat split; discriminate]. intro Ok. rewrite Ok, !bchips_app.
  assert (E : forall c, bchips c (init_tail hal d) = let r := k_reg (bchips c (init_tail hal d)) in bchips c (init_tail hal d)) by reflexivity. clear E.
  set (c1 := bchips _ [CS _ _ _]). clearbody c1. unfold init_tail, sleep_ops, opt. destruct (has_io_deinit hal); repeat split.
Qed.
Lemma K_step w s c o v s' bs : rop_wf o -> K w s c -> shape s o v s' bs -> K (see w o v) s' (bchips c bs).
Proof.
  intros W HK Sh. destruct o as [hal d| |f|p|b|p|buf|n symb t|cap| | |b].
  - eapply K_init. exact Sh.
  - destruct Sh as (-> & -> & hal & Ho & ->). eapply K_keep; [exact HK|rewrite sleep_chip; repeat split|reflexivity..].
  - destruct Sh as (-> & -> & ->). destruct HK as (K1 & K2 & K3 & K4). split; [exact K1|]. split; [|split; [exact K3|exact K4]]. intros f' E. injection E as <-. split; [exact W|reflexivity].
  - destruct v as [|[|]| |]; [exfalso| | |exfalso|exfalso]; cbn [shape] in Sh; try (destruct Sh as (d & _ & Sh); destruct (in_range (is_hp d) p); destruct Sh as (E & _); discriminate).
    + destruct (power_chip s p _ s' bs c Sh eq_refl) as (A1 & A2 & A3 & A4 & A5). assert (P : b_params s' = b_params s) by (destruct Sh as (d & _ & Sh); destruct (in_range (is_hp d) p); destruct Sh as (_ & -> & _); reflexivity).
      destruct HK as (K1 & K2 & K3 & K4). unfold K. cbn [see w_up w_freq w_dbm w_par w_pub]. rewrite P, A2, A3, A4, (A5 1856), (A5 1857) by (cbn; lia).
      split; [exact K1|]. split; [exact K2|]. split; [|exact K4]. intros p' E. injection E as <-. exact A1.
    + destruct Sh as (d & _ & Sh). destruct (in_range (is_hp d) p); destruct Sh as (E & -> & Sh); [discriminate|]. subst bs. exact HK.
  - destruct Sh as (-> & -> & ->). destruct HK as (K1 & K2 & K3 & K4). unfold K. cbn [see w_up w_freq w_dbm w_par w_pub]. split; [|split; [exact K2|split; [|exact K4]]].
    + intro U. destruct (K1 U) as (A & _). destruct b; (split; [exact A|split; reflexivity]).
    + intros p Hp. destruct b; exact (K3 p Hp).
  - destruct Sh as (-> & -> & hal & Ho & ->). destruct HK as (K1 & K2 & K3 & K4). unfold K. cbn [see w_up w_freq w_dbm w_par w_pub].
    unfold opt. destruct (has_io_init hal); (split; [exact K1|]; split; [exact K2|]; split; [exact K3|]; intros p' E; injection E as <-; split; [exact W|split; reflexivity]).
  - destruct Sh as (-> & -> & hal & Ho & g & _ & ->). rewrite bchips_app. fold (tx_ops hal buf). eapply K_keep; [exact HK|eapply kept_trans; [apply pkt_kept|apply tx_kept]|reflexivity..].
  - destruct Sh as (-> & -> & hal & Ho & g & _ & ->). rewrite bchips_app. eapply K_keep; [exact HK|eapply kept_trans; [apply pkt_kept|apply rx_kept]|reflexivity..].
  - destruct Sh as (-> & n & off & data & p0 & p1 & p2 & _ & _ & _ & _ & _ & _ & _ & -> & ->). eapply K_keep; [exact HK|apply kept_refl|reflexivity..].
  - destruct Sh as (-> & hal & Ho & g & r0 & r1 & r2 & r3 & _ & _ & _ & _ & _ & -> & ->). rewrite !bchips_app. eapply K_keep; [exact HK| |reflexivity..].
    eapply kept_trans; [apply pkt_kept|]. eapply kept_trans; [apply rx_kept|]. rewrite sleep_chip. repeat split.
  - destruct Sh as (-> & x & y & _ & _ & -> & ->). eapply K_keep; [exact HK| |reflexivity..]. unfold opt. destruct (b_handler s); repeat split.
  - destruct Sh as (-> & -> & ->). exact HK.
Qed.
Lemma wants_snoc tr o v es : wants (tr ++ [(o, v, es)]) = see (wants tr) o v.
Proof. unfold wants. rewrite fold_left_app. reflexivity. Qed.
Lemma chip_app c a b : chip126 c (a ++ b) = chip126 (chip126 c a) b. Proof. apply fold_left_app. Qed.
Lemma used_K H c0 tr h s : henv_ok H -> used126 H tr h s -> exists hi, h = unparse hi /\ Forall item_ok hi /\ ready s /\ K (wants tr) s (chip126 c0 hi).
Proof.
  intros HH. apply (used_ind H (fun tr hi s => K (wants tr) s (chip126 c0 hi)) HH).
  - intros o v s' es its bs Hi W L Sh. destruct o; try discriminate. change (wants [(PInit hal opts, v, es)]) with (see want0 (PInit hal opts) v). rewrite (likes_chip _ _ L). eapply K_init. exact Sh.
  - intros tr0 hi s0 o v s' es its bs HK _ W L Sh. rewrite wants_snoc, chip_app, (likes_chip _ _ L). eapply K_step; eassumption.
Qed.
Lemma used_step H c0 tr h s o v s' es hi its : henv_ok H -> used126 H tr h s -> rop_wf o -> call126 H o h s = Ok (v, s', es) -> transcript h = Some hi -> transcript es = Some its ->
  exists bs, likes bs its /\ shape s o v s' bs /\ K (wants tr) s (chip126 c0 hi) /\ ready s /\ chip126 c0 (hi ++ its) = bchips (chip126 c0 hi) bs.
Proof.
  intros HH HU W E Hh He. destruct (used_K H c0 tr h s HH HU) as (hi' & -> & F & R & HK). rewrite (transcript_unparse _ F) in Hh. injection Hh as ->.
  destruct (call_inv H hi s o v s' es HH W (or_intror R) E) as (its' & bs & -> & F' & L & Sh). rewrite (transcript_unparse _ F') in He. injection He as ->.
  exists bs. rewrite chip_app, (likes_chip _ _ L). auto.
Qed.

(** ** meaning *)
Lemma carrier_126 f c : 0 <= f < 4096000000 -> k_freq c = word (frf_bytes f) -> carrier 25 f (modem126 c).
Proof.
  intros Hf E. unfold carrier. cbn [modem126 m_steps]. rewrite E. unfold word, frf_bytes, nz. cbn [nth]. rewrite !land255, !Z.shiftr_div_pow2 by lia.
  assert (V : frf f = f * 33554432 / 32000000) by (unfold frf; rewrite Z.shiftl_mul_pow2 by lia; reflexivity).
  pose proof (Z.div_mod (f * 33554432) 32000000 ltac:(lia)) as D. pose proof (Z.mod_pos_bound (f * 33554432) 32000000 ltac:(lia)) as B. rewrite <- V in D.
  assert (R : 0 <= frf f < 4294967296) by (rewrite V; split; [apply Z.div_pos; lia|apply Z.div_lt_upper_bound; lia]).
  set (x := frf f) in *. change (2 ^ 24) with 16777216. change (2 ^ 16) with 65536. change (2 ^ 8) with 256. change (2 ^ 25) with 33554432.
  assert (X : 16777216 * (x / 16777216 mod 256) + 65536 * (x / 65536 mod 256) + 256 * (x / 256 mod 256) + x mod 256 = x).
  { pose proof (Z.div_mod x 256 ltac:(lia)) as D1. pose proof (Z.div_mod (x / 256) 256 ltac:(lia)) as D2. pose proof (Z.div_mod (x / 256 / 256) 256 ltac:(lia)) as D3.
    rewrite !Z.div_div in * by lia. change (256 * 256) with 65536 in *. change (65536 * 256) with 16777216 in *.
    assert (x / 16777216 mod 256 = x / 16777216) as -> by (apply Z.mod_small; split; [apply Z.div_pos; lia|apply Z.div_lt_upper_bound; lia]). lia. }
  rewrite X. lia.
Qed.
Lemma mod_means p : params_wf p -> nz (mod_of p) 0 = 6 + p_sf p /\ khz126 (nz (mod_of p) 1) = 125 * 2 ^ p_bw p /\ nz (mod_of p) 2 = 1 + p_cr p /\ (nz (mod_of p) 3 =? 1) = (5 <=? p_sf p).
Proof.
  intros (W1 & W2 & W3 & _). unfold mod_of, nz. cbn [nth]. change SF_11 with 5.
  assert (E1 : p_sf p = 0 \/ p_sf p = 1 \/ p_sf p = 2 \/ p_sf p = 3 \/ p_sf p = 4 \/ p_sf p = 5 \/ p_sf p = 6) by lia.
  assert (E2 : p_bw p = 0 \/ p_bw p = 1 \/ p_bw p = 2) by lia. assert (E3 : p_cr p = 0 \/ p_cr p = 1 \/ p_cr p = 2 \/ p_cr p = 3) by lia.
  destruct E1 as [->|[->|[->|[->|[->|[->| ->]]]]]], E2 as [->|[->| ->]], E3 as [->|[->|[->| ->]]]; repeat split.
Qed.
(** the modem as the last tx() or rx() sets it up *)
Lemma pkt_modem c z p g n : is_byte g -> params_wf p -> k_mod c = mod_of p -> modulation p (modem126 (bchips c (pkt z p g n))) /\ m_preamble (modem126 (bchips c (pkt z p g n))) = p_preamble_len p /\
  m_ldro (modem126 (bchips c (pkt z p g n))) = (5 <=? p_sf p).
Proof.
  intros Bg Wp Em. destruct (mod_means p Wp) as (M1 & M2 & M3 & M4). rewrite pkt_chip. unfold modulation. cbn [modem126 k_pkt k_mod k_reg m_sf m_khz m_cr m_implicit m_crc m_iq m_ldro m_preamble]. rewrite Em, M1, M2, M3, M4.
  change (put (k_reg c) 1846 ?v 1846) with v. unfold nz. cbn [nth]. split; [|split; [|reflexivity]].
  - repeat split; try (destruct (p_implicit_header p); reflexivity); try (destruct (p_crc_on p); reflexivity).
    assert (B : bit (if p_inverted_iq p then u8 (Z.land g (Z.lnot 4)) else u8 (Z.lor g 4)) 2 = negb (p_inverted_iq p)).
    { pose (P := fun g => negb (bit (u8 (Z.land g (Z.lnot 4))) 2) && bit (u8 (Z.lor g 4)) 2). assert (A : P g = true) by (apply (all_below P 256); [vm_compute; reflexivity|exact Bg]). unfold P in A.
      apply Bool.andb_true_iff in A as [A1 A2]. destruct (p_inverted_iq p); [apply Bool.negb_true_iff, A1|exact A2]. }
    rewrite B. destruct (p_inverted_iq p); reflexivity.
  - destruct Wp as (_ & _ & _ & Wp). rewrite land255, Z.shiftr_div_pow2 by lia. change (2 ^ 8) with 256. unfold u8. pose proof (Z.div_mod (p_preamble_len p) 256 ltac:(lia)).
    rewrite (Z.mod_small (p_preamble_len p / 256)) by (split; [apply Z.div_pos; lia|apply Z.div_lt_upper_bound; lia]). lia.
Qed.
Lemma fill_spec vs : forall f a, 0 <= a -> a + len vs <= 256 -> forall i, fill256 f a vs i = if (a <=? i) && (i <? a + len vs) then nth (Z.to_nat (i - a)) vs 0 else f i.
Proof.
  induction vs as [|v vs IH]; intros f a Ha Hl i.
  - cbn [fill256]. change (len []) with 0. destruct ((a <=? i) && (i <? a + 0)) eqn:E; [lia|reflexivity].
  - cbn [fill256]. assert (EL : len (v :: vs) = 1 + len vs) by (unfold len; cbn [length]; lia). rewrite EL in *. assert (Lp : 0 <= len vs) by (unfold len; lia).
    destruct vs as [|v' vs'].
    + cbn [fill256]. unfold put. change (len []) with 0. destruct (i =? a) eqn:E.
      * replace ((a <=? i) && (i <? a + (1 + 0))) with true by lia. replace (i - a) with 0 by lia. reflexivity.
      * replace ((a <=? i) && (i <? a + (1 + 0))) with false by lia. reflexivity.
    + assert (Lv : 1 <= len (v' :: vs')) by (unfold len; cbn [length]; lia). set (l := v' :: vs') in *. rewrite Z.mod_small by lia. rewrite IH by lia. unfold put. destruct (i =? a) eqn:E.
      * replace ((a + 1 <=? i) && (i <? a + 1 + len l)) with false by lia. replace ((a <=? i) && (i <? a + (1 + len l))) with true by lia. replace (i - a) with 0 by lia. reflexivity.
      * destruct ((a + 1 <=? i) && (i <? a + 1 + len l)) eqn:F.
        -- replace ((a <=? i) && (i <? a + (1 + len l))) with true by lia. replace (Z.to_nat (i - a)) with (Datatypes.S (Z.to_nat (i - (a + 1)))) by lia. reflexivity.
        -- replace ((a <=? i) && (i <? a + (1 + len l))) with false by lia. reflexivity.
Qed.
Lemma mem_fill f vs : len vs <= 256 -> mem (fill256 f 0 vs) 0 (len vs) = vs.
Proof.
  intros Hl. unfold mem. assert (E : map (fun i : nat => fill256 f 0 vs ((0 + Z.of_nat i) mod 256)) (seq 0 (Z.to_nat (len vs))) = map (fun i => nth i vs 0) (seq 0 (length vs))).
  { unfold len. rewrite Nat2Z.id. apply map_ext_in. intros i Hi. apply in_seq in Hi. unfold len in Hl. rewrite Z.mod_small by lia. rewrite fill_spec by (unfold len; lia). unfold len.
    replace ((0 <=? 0 + Z.of_nat i) && (0 + Z.of_nat i <? 0 + Z.of_nat (length vs))) with true by lia. f_equal. lia. }
  rewrite E. clear. induction vs as [|v vs IH]; [reflexivity|]. cbn [length seq map nth]. f_equal. rewrite <- seq_shift, map_map. exact IH.
Qed.
Lemma aired_app a b : aired (a ++ b) = aired a ++ aired b. Proof. apply flat_map_app. Qed.
Lemma quiet_acts c s o v s' bs : shape s o v s' bs -> (forall buf, o <> PTx buf) -> aired (k_acts (bchips c bs)) = aired (k_acts c).
Proof.
  intros Sh N. destruct o as [hal d| |f|p|b|p|buf|n symb t|cap| | |b].
  - destruct Sh as (e0 & e1 & _ & _ & _ & _ & ->). rewrite !bchips_app.
    assert (E1 : k_acts (bchips c (init_head hal d)) = k_acts c) by (unfold init_head, tcxo_ops, opt; destruct (has_io_deinit hal), (use_tcxo d); reflexivity). rewrite <- E1.
    set (c1 := bchips c (init_head hal d)). clearbody c1. destruct ((e0 =? 0) && (e1 =? 0)); [|reflexivity]. unfold init_tail, sleep_ops, opt. destruct (has_io_deinit hal); reflexivity.
  - destruct Sh as (-> & -> & hal & Ho & ->). rewrite sleep_chip. reflexivity.
  - destruct Sh as (-> & -> & ->). reflexivity.
  - destruct Sh as (d & _ & Sh). destruct (in_range (is_hp d) p); destruct Sh as (_ & _ & Sh); [|subst; reflexivity]. destruct (is_hp d); [destruct Sh as (g & _ & ->); reflexivity|]. subst bs. destruct (p =? 15); reflexivity.
  - destruct Sh as (-> & -> & ->). destruct b; reflexivity.
  - destruct Sh as (-> & -> & hal & Ho & ->). unfold opt. destruct (has_io_init hal); reflexivity.
  - destruct (N buf eq_refl).
  - destruct Sh as (-> & -> & hal & Ho & g & _ & ->). rewrite bchips_app, rx_chip. cbn [k_acts]. rewrite aired_app, (proj2 (pkt_kept _ _ _ _ _)). apply app_nil_r.
  - destruct Sh as (-> & n & off & data & p0 & p1 & p2 & _ & _ & _ & _ & _ & _ & _ & -> & ->). reflexivity.
  - destruct Sh as (-> & hal & Ho & g & r0 & r1 & r2 & r3 & _ & _ & _ & _ & _ & -> & ->). rewrite !bchips_app, sleep_chip. cbn [k_acts]. change (bchips ?c [CG _ _ _]) with c. rewrite rx_chip. cbn [k_acts]. rewrite aired_app, (proj2 (pkt_kept _ _ _ _ _)). apply app_nil_r.
  - destruct Sh as (-> & x & y & _ & _ & -> & ->). unfold opt. destruct (b_handler s); reflexivity.
  - destruct Sh as (-> & -> & ->). reflexivity.
Qed.
Lemma hp_snoc tr o v es : hp (tr ++ [(o, v, es)]) = match o with PInit _ d => is_hp d | _ => hp tr end.
Proof. unfold hp. rewrite fold_left_app. reflexivity. Qed.
Lemma used_hp H tr h s : henv_ok H -> used126 H tr h s -> exists d, b_opts s = Some d /\ is_hp d = hp tr.
Proof.
  intros HH HU. destruct (used_ind H (fun tr _ s => exists d, b_opts s = Some d /\ is_hp d = hp tr) HH) with (tr := tr) (h := h) (s := s) as (hi & A & B & _ & D); [| |exact HU|exact D].
  - intros o v s' es its bs Hi W L Sh. destruct o; try discriminate. destruct Sh as (e0 & e1 & _ & _ & _ & -> & _). eexists. split; reflexivity.
  - intros tr0 hi s0 o v s' es its bs IH _ W L Sh. rewrite hp_snoc.
    destruct o as [hal d| |f|q|b|q|buf|n symb t|cap| | |b]; cbn [shape] in Sh; try (destruct Sh as (_ & -> & _); exact IH); try (destruct Sh as (-> & _); exact IH).
    + destruct Sh as (e0 & e1 & _ & _ & _ & -> & _). eexists. split; reflexivity.
    + destruct Sh as (d & Hd & Sh). destruct (in_range (is_hp d) q); destruct Sh as (_ & -> & _); exact IH.
Qed.
(** ** reset *)
Fixpoint brs (p : rs) (bs : list cop) : option rs :=
  match bs with [] => Some p | b :: bs' => match rs_see p (match b with CD e => Do e | _ => Tr [] end) with Some p' => brs p' bs' | None => None end end.
Lemma rs_run_app a : forall p b, rs_run p (a ++ b) = match rs_run p a with Some q => rs_run q b | None => None end.
Proof. induction a as [|i a IH]; intros p b; [reflexivity|]. cbn [app rs_run]. destruct (rs_see p i); [apply IH|reflexivity]. Qed.
Lemma lead_rs z l : lead z l -> rs_run (RsUp true) l = Some (RsUp true).
Proof. destruct z; cbn [lead]; [intros (x & y & _ & _ & ->)|intros ->]; reflexivity. Qed.
Lemma likes_rs bs its : likes bs its -> forall p q, brs p bs = Some q -> rs_run p its = Some q.
Proof.
  induction 1 as [|b l bs its Hl _ IH]; intros p q Hp; [exact Hp|]. cbn [brs] in Hp. rewrite rs_run_app.
  destruct b as [z x|z cmd vs|z a vs|z off vs|e]; cbn [like] in Hl; [| | | |destruct Hl as [-> _]; cbn [rs_run]; destruct (rs_see p (Do e)); [apply IH, Hp|discriminate]].
  all: assert (p = RsUp true) by (destruct p as [?|[|]]; try discriminate; reflexivity); subst p; cbn [rs_see] in Hp.
  - destruct Hl as (l' & y & Hl & _ & _ & ->). rewrite rs_run_app, (lead_rs z l' Hl). cbn [rs_run rs_see]. apply IH, Hp.
  - destruct Hl as (l' & y & y' & Hl & _ & _ & _ & ->). rewrite rs_run_app, (lead_rs z l' Hl). cbn [rs_run rs_see]. apply IH, Hp.
  - destruct Hl as (l' & y & y' & Hl & _ & _ & ->). rewrite rs_run_app, (lead_rs z l' Hl). cbn [rs_run rs_see]. apply IH, Hp.
  - destruct Hl as (l' & y & y' & Hl & _ & _ & ->). rewrite rs_run_app, (lead_rs z l' Hl). cbn [rs_run rs_see]. apply IH, Hp.
Qed.
Lemma shape_rs s o v s' bs p : shape s o v s' bs -> is_init o = true \/ p = RsUp true -> brs p bs = Some (RsUp true).
Proof.
  destruct o as [hal d| |f|q|b|q|buf|n symb t|cap| | |b]; intros Sh Hp; try (destruct Hp as [Hp|Hp]; [discriminate|]; subst p).
  - destruct Sh as (e0 & e1 & _ & _ & _ & -> & ->). clear Hp. unfold init_head, tcxo_ops, init_tail, sleep_ops, opt.
    destruct (has_io_deinit hal), (use_tcxo d), ((e0 =? 0) && (e1 =? 0)); reflexivity.
  - destruct Sh as (-> & -> & hal & Ho & ->). unfold sleep_ops, opt. destruct (has_io_deinit hal); reflexivity.
  - destruct Sh as (-> & -> & ->). reflexivity.
  - destruct Sh as (d & Hd & Sh). destruct (in_range (is_hp d) q); destruct Sh as (-> & -> & Sh); [|subst; reflexivity]. destruct (is_hp d); [destruct Sh as (g & _ & ->); reflexivity|]. subst bs. destruct (q =? 15); reflexivity.
  - destruct Sh as (-> & -> & ->). reflexivity.
  - destruct Sh as (-> & -> & hal & Ho & ->). unfold opt. destruct (has_io_init hal); reflexivity.
  - destruct Sh as (-> & -> & hal & Ho & g & _ & ->). unfold pkt, opt. destruct (has_ant hal); reflexivity.
  - destruct Sh as (-> & -> & hal & Ho & g & _ & ->). unfold pkt, rx_tail, opt. destruct (has_ant hal); reflexivity.
  - destruct Sh as (-> & n & off & data & p0 & p1 & p2 & _ & _ & _ & _ & _ & _ & _ & -> & ->). reflexivity.
  - destruct Sh as (-> & hal & Ho & g & r0 & r1 & r2 & r3 & _ & _ & _ & _ & _ & -> & ->). unfold pkt, rx_tail, sleep_ops, opt. destruct (has_ant hal), (has_io_deinit hal); reflexivity.
  - destruct Sh as (-> & x & y & _ & _ & -> & ->). unfold opt. destruct (b_handler s); reflexivity.
  - destruct Sh as (-> & -> & ->). reflexivity.
Qed.
Lemma used_rs H p tr h s : henv_ok H -> used126 H tr h s -> exists hi, h = unparse hi /\ Forall item_ok hi /\ ready s /\ rs_run p hi = Some (RsUp true).
Proof.
  intros HH. apply (used_ind H (fun _ hi _ => rs_run p hi = Some (RsUp true)) HH).
  - intros o v s' es its bs Hi W L Sh. eapply likes_rs; [exact L|]. eapply shape_rs; [exact Sh|left; exact Hi].
  - intros tr0 hi s0 o v s' es its bs IH _ W L Sh. rewrite rs_run_app, IH. eapply likes_rs; [exact L|]. eapply shape_rs; [exact Sh|right; reflexivity].
Qed.
