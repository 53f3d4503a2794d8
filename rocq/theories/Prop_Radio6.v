(** Prop_Radio6.v -- C47-C54, C61-C65 for the SX126x driver.

    [does126 H tr h s o v s' es hi its]: a driver was used by the calls [tr] (an init
    and then anything), and now [o] is called and returns [v]; [hi] and [its] are the
    SPI transactions and HAL calls before and during the call. [chip126 c0 its] is the
    state the transactions put a chip in that was in the arbitrary state [c0]. *)
From Verif Require Import LWant6 DemoRadio.

Local Ltac enter c0 := match goal with HH : henv_ok ?H, D : does126 ?H ?tr ?h ?s ?o ?v ?s' ?es ?hi ?its |- _ =>
  destruct D as (HU & W & E & Hh & He);
  destruct (used_step H c0 tr h s o v s' es hi its HH HU W E Hh He) as (bs & L & Sh & HK & Rd & Hc) end.
Definition usual := [PInit hal_full cfg; PHandler true; PFreq 868100000; PPower 14; PPublic true; PSetup (par 1 0 false)].
Definition low : Sx126x.sx126x_opts := Sx126x.Mk_opts false false false 0 0.

(** ** C47: every byte moves inside a chip-select window *)
Theorem C47_sx126x H h s o v s' es : henv_ok H -> may126 H h s o -> rop_wf o -> call126 H o h s = Ok (v, s', es) ->
  (exists hi, transcript h = Some hi) /\ (exists its, transcript es = Some its).
Proof.
  intros HH [[tr HU]|(-> & -> & hal & d & ->)] W E.
  - destruct (used_call H tr h s o v s' es HH HU W E) as (hi & its & _ & A & B & _). eauto.
  - destruct (call_inv H [] d126_0 _ v s' es HH W (or_introl eq_refl) E) as (its & _ & -> & F & _). split; [exists []; reflexivity|exists its; apply transcript_unparse, F].
Qed.
Example C47_sx126x_case : case126 (usual ++ [PSleep]) (PTx [1; 2; 3]) (fun c0 tr v hi its => w_up (wants tr) && (length its =? 16)%nat).
Proof. show126 (@nil (Z * list Z)). Qed.

(** ** C48: the chip is woken before it is addressed and BUSY is waited for *)
Theorem C48_sx126x H p tr h s hi : henv_ok H -> used126 H tr h s -> transcript h = Some hi -> exists q, pw_run p hi = Some q.
Proof. intros HH HU Hh. destruct (used_pw H p tr h s HH HU) as (hi' & -> & F & q & R & _). rewrite (transcript_unparse _ F) in Hh. injection Hh as <-. eauto. Qed.
Theorem C48_sx126x_sleep H p tr h s v s' es hi its : henv_ok H -> does126 H tr h s PSleep v s' es hi its -> pw_run p (hi ++ its) = Some (Cold true).
Proof.
  intros HH D. enter on126. destruct (used_pw H p tr h s HH HU) as (hi' & -> & F & q & R & Hq). rewrite (transcript_unparse _ F) in Hh. injection Hh as ->.
  rewrite pw_app, R. destruct Sh as (-> & -> & hal & Ho & ->). eapply likes_pw; [exact L|]. apply sleep_pw, Hq.
Qed.
Example C48_sx126x_case : case126 (usual ++ [PTx [1; 2]; PSleep; PFreq 868300000; PRand; PIrq]) PSleep
  (fun c0 tr v hi its => (length (filter (fun i => match i with Tr x => zlist_eqb (firstn 1 (mosi x)) [132%Z] | _ => false end) (hi ++ its)) =? 4)%nat).
Proof. show126 (@nil (Z * list Z)). Qed.

(** ** C49: the carrier is less than a step of 0.95 Hz below the request *)
Theorem C49_sx126x H c0 tr h s f v s' es hi its : henv_ok H -> does126 H tr h s (PFreq f) v s' es hi its ->
  let c := chip126 c0 hi in let c' := chip126 c0 (hi ++ its) in
  (f < 4096000000 -> carrier 25 f (modem126 c')) /\
  c' = Mk_c126 (k_type c) (k_freq c') (k_pa c) (k_tx c) (k_mod c) (k_pkt c) (k_base c) (k_symb c) (k_reg c) (k_buf c) (k_acts c).
Proof.
  intros HH D. enter c0. cbv zeta. rewrite Hc. destruct Sh as (-> & -> & ->). split; [|reflexivity].
  intro Hf. apply carrier_126; [cbn in W; lia|reflexivity].
Qed.
Example C49_sx126x_case : case126 (usual ++ [PSleep]) (PFreq 960000000) (fun c0 tr v hi its => m_steps (modem126 (chip126 c0 (hi ++ its))) =? 1006632960).
Proof. show126 (@nil (Z * list Z)). Qed.

(** ** C50: output power: -9..22 dBm high power, -17..15 dBm low power *)
Theorem C50_sx126x H c0 tr h s p v s' es hi its : henv_ok H -> does126 H tr h s (PPower p) v s' es hi its ->
  let c := chip126 c0 hi in let c' := chip126 c0 (hi ++ its) in
  v = RvBool (if hp tr then (-9 <=? p) && (p <=? 22) else (-17 <=? p) && (p <=? 15)) /\ (v = RvBool false -> es = []) /\
  (v = RvBool true -> m_dbm10 (modem126 c') = Some (10 * p) /\ k_type c' = k_type c /\ k_freq c' = k_freq c /\ k_mod c' = k_mod c /\
     (forall a, ~ In a [2264; 2279] -> k_reg c' a = k_reg c a)).
Proof.
  intros HH D. enter c0. cbv zeta. destruct (used_hp H tr h s HH HU) as (d & Hd & Hp). split; [|split].
  - destruct Sh as (d' & Hd' & Sh). rewrite Hd in Hd'. injection Hd' as <-. rewrite <- Hp. change (if is_hp d then (-9 <=? p) && (p <=? 22) else (-17 <=? p) && (p <=? 15)) with (in_range (is_hp d) p).
    destruct (in_range (is_hp d) p); destruct Sh as (-> & _); reflexivity.
  - intro Hv. destruct (used_call H tr h s _ _ _ _ HH HU W E) as (_ & its' & bs' & _ & _ & L' & Sh' & _ & _ & ->). destruct Sh' as (d' & _ & Sh'). destruct (in_range (is_hp d') p); destruct Sh' as (E1 & _ & Sh'); [congruence|]. subst bs'. inversion L'. reflexivity.
  - intro Hv. rewrite Hc. apply (power_chip _ _ _ _ _ (chip126 c0 hi) Sh Hv).
Qed.
Example C50_sx126x_case : case126 usual (PPower (-9)) (fun c0 tr v hi its => hp tr && match v with RvBool b => b | _ => false end).
Proof. show126 (@nil (Z * list Z)). Qed.
Example C50_sx126x_low_case : case126 (usual ++ [PInit hal_full low]) (PPower 15) (fun c0 tr v hi its => negb (hp tr) && match v with RvBool b => b | _ => false end).
Proof. show126 (@nil (Z * list Z)). Qed.

(** ** C51: modulation: applied by the next tx() or rx() *)
Definition starts_radio (o : rop) : Prop := match o with PTx _ | PRx _ _ _ => True | _ => False end.
Lemma K_started H c0 tr h s o v s' es hi its q : henv_ok H -> does126 H tr h s o v s' es hi its -> starts_radio o -> w_par (wants tr) = Some q ->
  exists m, k_acts (chip126 c0 (hi ++ its)) = k_acts (chip126 c0 hi) ++
    [match o with PTx buf => Air m buf | PRx n symb t => Listen m (rx_mode (rx_time t)) (u8 symb) n | _ => Air m [] end] /\
    modulation q m /\ m_preamble m = p_preamble_len q /\ m_ldro m = (5 <=? p_sf q) /\
    let c := chip126 c0 hi in m_lora m = (k_type c =? 1) /\ m_steps m = m_steps (modem126 c) /\ m_dbm10 m = m_dbm10 (modem126 c) /\ m_sync m = m_sync (modem126 c).
Proof.
  intros HH D Ho Hq. enter c0. destruct HK as (_ & _ & _ & K4). destruct (K4 q Hq) as (Wq & Ep & Em). destruct o as [| | | | | |buf|n symb t| | | |]; try contradiction.
  - destruct Sh as (-> & -> & hal & Hh' & g & Bg & ->). rewrite Ep in Hc. fold (tx_ops hal buf) in Hc. rewrite bchips_app, tx_chip in Hc.
    set (c1 := bchips (chip126 c0 hi) (pkt (b_sleep s) q g (len buf))) in *. destruct (pkt_modem (chip126 c0 hi) (b_sleep s) q g (len buf) Bg Wq Em) as (M1 & M2 & M3). fold c1 in M1, M2, M3.
    exists (modem126 c1). rewrite Hc. split; [|split; [exact M1|split; [exact M2|split; [exact M3|]]]].
    + change (nz (k_pkt c1) 3) with (len buf). rewrite mem_fill by (cbn in W; lia). reflexivity.
    + unfold c1. rewrite pkt_chip. repeat split.
  - destruct Sh as (-> & -> & hal & Hh' & g & Bg & ->). rewrite Ep in Hc. rewrite bchips_app, rx_chip in Hc.
    set (c1 := bchips (chip126 c0 hi) (pkt (b_sleep s) q g n)) in *. destruct (pkt_modem (chip126 c0 hi) (b_sleep s) q g n Bg Wq Em) as (M1 & M2 & M3). fold c1 in M1, M2, M3.
    exists (modem126 c1). rewrite Hc. split; [reflexivity|split; [exact M1|split; [exact M2|split; [exact M3|]]]]. unfold c1. rewrite pkt_chip. repeat split.
Qed.
Theorem C51_sx126x H c0 tr h s o v s' es hi its q : henv_ok H -> does126 H tr h s o v s' es hi its -> starts_radio o -> w_par (wants tr) = Some q ->
  exists a, k_acts (chip126 c0 (hi ++ its)) = k_acts (chip126 c0 hi) ++ [a] /\ modulation q (match a with Air m _ => m | Listen m _ _ _ => m end).
Proof.
  intros HH D Ho Hq. destruct (K_started H c0 tr h s o v s' es hi its q HH D Ho Hq) as (m & E & M & _). destruct o; try contradiction; (eexists; split; [exact E|exact M]).
Qed.
Example C51_sx126x_case : case126 (usual ++ [PSetup (Mk_params 6 2 3 12 false true true); PSleep]) (PTx [1]) (fun c0 tr v hi its =>
  match k_acts (chip126 c0 (hi ++ its)), w_par (wants tr) with [Air m _], Some q => (m_sf m =? 12) && (m_khz m =? 500) && (m_cr m =? 4) && (p_sf q =? 6) | _, _ => false end).
Proof. show126 (@nil (Z * list Z)). Qed.
(** low data rate optimisation follows the spreading factor alone *)
Theorem C51_sx126x_ldro_refuted : exists H c0 tr h s v s' es hi its q m, henv_ok H /\ does126 H tr h s (PTx [1]) v s' es hi its /\ w_par (wants tr) = Some q /\
  k_acts (chip126 c0 (hi ++ its)) = k_acts (chip126 c0 hi) ++ [Air m [1]] /\ long_symbols q = false /\ m_ldro m = true.
Proof.
  assert (X : case126 (usual ++ [PSetup (par 6 2 false)]) (PTx [1]) (fun c0 tr v hi its => match w_par (wants tr) with Some q => negb (long_symbols q) && (5 <=? p_sf q) | None => false end)) by show126 (@nil (Z * list Z)).
  destruct X as (H & c0 & tr & h & s & v & s' & es & hi & its & HH & D & P). destruct (w_par (wants tr)) as [q|] eqn:Eq; [|discriminate]. apply Bool.andb_true_iff in P as [P1 P2].
  destruct (K_started H c0 tr h s _ v s' es hi its q HH D I Eq) as (m & E & _ & _ & L & _). exists H, c0, tr, h, s, v, s', es, hi, its, q, m.
  repeat (split; [assumption|]). split; [apply Bool.negb_true_iff, P1|]. rewrite L. exact P2.
Qed.
Theorem C51_sx126x_ldro_partial H c0 tr h s o v s' es hi its q : henv_ok H -> does126 H tr h s o v s' es hi its -> starts_radio o -> w_par (wants tr) = Some q ->
  exists a, k_acts (chip126 c0 (hi ++ its)) = k_acts (chip126 c0 hi) ++ [a] /\ let m := match a with Air m _ => m | Listen m _ _ _ => m end in
  m_ldro m = (5 <=? p_sf q) /\ (p_bw q = 0 \/ p_bw q = 1 /\ p_sf q <> 5 \/ p_sf q < 5 -> m_ldro m = long_symbols q).
Proof.
  intros HH D Ho Hq. destruct (K_started H c0 tr h s o v s' es hi its q HH D Ho Hq) as (m & EA & M & _ & LD & _).
  assert (G : p_bw q = 0 \/ p_bw q = 1 /\ p_sf q <> 5 \/ p_sf q < 5 -> m_ldro m = long_symbols q).
  { enter c0. destruct HK as (_ & _ & _ & K4). destruct (K4 q Hq) as ((W1 & W2 & _) & _ & _). rewrite LD. intro Hp. unfold long_symbols.
    assert (E1 : p_sf q = 0 \/ p_sf q = 1 \/ p_sf q = 2 \/ p_sf q = 3 \/ p_sf q = 4 \/ p_sf q = 5 \/ p_sf q = 6) by lia. assert (E2 : p_bw q = 0 \/ p_bw q = 1 \/ p_bw q = 2) by lia.
    destruct E2 as [E2|[E2|E2]], E1 as [E1|[E1|[E1|[E1|[E1|[E1|E1]]]]]]; rewrite E1, E2 in *; try reflexivity; lia. }
  destruct o; try contradiction; (eexists; split; [exact EA|split; [exact LD|exact G]]).
Qed.
Example C51_sx126x_ldro_partial_case : case126 (usual ++ [PSetup (par 6 1 false)]) (PTx [1]) (fun c0 tr v hi its => match w_par (wants tr) with Some q => long_symbols q && (p_bw q =? 1) | None => false end).
Proof. show126 (@nil (Z * list Z)). Qed.

(** ** C52: tx() sends exactly the given bytes, once *)
Theorem C52_sx126x H c0 tr h s buf v s' es hi its : henv_ok H -> does126 H tr h s (PTx buf) v s' es hi its ->
  exists m, k_acts (chip126 c0 (hi ++ its)) = k_acts (chip126 c0 hi) ++ [Air m buf].
Proof.
  intros HH D. enter c0. destruct Sh as (-> & -> & hal & Ho & g & Bg & ->). fold (tx_ops hal buf) in Hc. rewrite bchips_app, tx_chip in Hc. eexists. rewrite Hc. cbn [k_acts]. rewrite (proj2 (pkt_kept _ _ _ _ _)).
  change (nz (k_pkt (bchips ?c (pkt ?a ?b ?d ?n))) 3) with n. rewrite mem_fill by (cbn in W; lia). reflexivity.
Qed.
Example C52_sx126x_case : case126 (usual ++ [PSleep]) (PTx [1; 2; 3]) (fun c0 tr v hi its => w_up (wants tr)).
Proof. show126 (@nil (Z * list Z)). Qed.

(** ** C53: a received packet: GetRxBufferStatus is command 19, GetPacketStatus 20 *)
Theorem C53_sx126x H tr h s cap v s' es hi its : henv_ok H -> does126 H tr h s (PRead cap) v s' es hi its ->
  exists n off data raw snr z, v = RvPkt (Mk_rxpkt data (Z.quot (- raw) 2) (Z.quot (s8 snr) 4)) /\
    answers126 19 its = [n; off] /\ buffer126 its = [(off, data)] /\ answers126 20 its = [raw; snr; z] /\
    len data = Z.min n cap /\ bytes_ok data /\ is_byte raw /\ is_byte snr.
Proof.
  intros HH D. enter on126. destruct Sh as (-> & n & off & data & p0 & p1 & p2 & Bn & Bo & Bd & Hl & B0 & B1 & B2 & -> & ->). exists n, off, data, p0, p1, p2.
  rewrite (likes_ans 19 _ _ L), (likes_ans 20 _ _ L) by reflexivity. destruct (likes_rest _ _ L) as (-> & _ & _). repeat (split; [first [reflexivity|assumption]|]). assumption.
Qed.
Example C53_sx126x_case : case126 (usual ++ [PRx 255 8 0; PIrq]) (PRead 2) (fun c0 tr v hi its => match v with
  | RvPkt p => zlist_eqb (rx_data p) [7; 8] && (rx_rssi p =? -60) && (rx_snr p =? -2) | _ => false end).
Proof. show126 [(19, [0; 3; 32]); (30, [0; 0; 7; 8; 9]); (20, [0; 121; 246; 0])]. Qed.

(** ** C54: interrupt flags: 0 TX done, 1 RX done, 9 timeout, 6 CRC error *)
Theorem C54_sx126x H tr h s v s' es hi its : henv_ok H -> does126 H tr h s PIrq v s' es hi its ->
  exists x y, let f := 256 * x + y in let m := mask (bit f 0) (bit f 1) (bit f 9) (bit f 6) in
    is_byte x /\ is_byte y /\ answers126 18 its = [x; y] /\ v = RvNum m /\ user_calls its = (if handler tr then [m] else []) /\ cleared126 its = [f].
Proof.
  intros HH D. enter on126. pose proof (used_handler H tr h s HH HU) as Hha. destruct Sh as (-> & x & y & Bx & By & -> & ->). rewrite Hha in L. exists x, y. cbv zeta.
  rewrite (likes_ans 18 _ _ L) by reflexivity. destruct (likes_rest _ _ L) as (_ & -> & ->).
  assert (EF : Z.lor (Z.shiftl x 8) y = 256 * x + y).
  { rewrite Z.shiftl_mul_pow2 by lia. rewrite Z.lor_comm. assert (Hl : Z.land y (x * 2 ^ 8) = 0).
    { apply Z.bits_inj'. intros n Hn. rewrite Z.land_spec, Z.bits_0, Z.mul_pow2_bits by lia. destruct (Z_lt_le_dec n 8); [rewrite (Z.testbit_neg_r x) by lia; apply Bool.andb_false_r|].
      replace (Z.testbit y n) with false; [reflexivity|]. symmetry. unfold is_byte in By. destruct (Z.eq_dec y 0) as [->|Ny]; [apply Z.bits_0|]. apply Z.bits_above_log2; [lia|]. apply Z.log2_lt_pow2; [lia|]. apply Z.lt_le_trans with (2 ^ 8); [lia|]. apply Z.pow_le_mono_r; lia. }
    rewrite <- Z.lxor_lor by exact Hl. rewrite <- Z.add_nocarry_lxor by exact Hl. lia. }
  assert (EM : irq_mask (Z.lor (Z.shiftl x 8) y) = mask (bit (256 * x + y) 0) (bit (256 * x + y) 1) (bit (256 * x + y) 9) (bit (256 * x + y) 6)).
  { rewrite EF. pose (P := fun f => irq_mask f =? mask (bit f 0) (bit f 1) (bit f 9) (bit f 6)).
    pose (Q := fun x => forallb (fun k => P (256 * x + Z.of_nat k)) (seq 0 256)). assert (A : Q x = true) by (apply (all_below Q 256); [vm_compute; reflexivity|exact Bx]).
    unfold Q in A. assert (A' : P (256 * x + y) = true) by (apply (all_below (fun y => P (256 * x + y)) 256); [exact A|exact By]). unfold P in A'. lia. }
  rewrite EM. split; [exact Bx|]. split; [exact By|]. unfold opt. split; [destruct (handler tr); reflexivity|]. split; [reflexivity|]. split; destruct (handler tr); reflexivity.
Qed.
Example C54_sx126x_case : case126 (usual ++ [PRx 255 8 0]) PIrq (fun c0 tr v hi its => handler tr && match v with RvNum m => (m =? 10) | _ => false end).
Proof. show126 [(18, [0; 1; 66])]. Qed.

(** ** C61: the reset pulse *)
Theorem C61_sx126x H p tr h s hi : henv_ok H -> used126 H tr h s -> transcript h = Some hi -> rs_run p hi = Some (RsUp true).
Proof. intros HH HU Hh. destruct (used_rs H p tr h s HH HU) as (hi' & -> & F & _ & R). rewrite (transcript_unparse _ F) in Hh. injection Hh as <-. exact R. Qed.
Example C61_sx126x_case : case126 (usual ++ [PInit hal_full low; PSleep]) PRand (fun c0 tr v hi its => (length (filter (fun i => match i with Do (HReset true) => true | _ => false end) hi) =? 2)%nat).
Proof. show126 (@nil (Z * list Z)). Qed.

(** ** C62: what is on the air is what was asked for *)
Definition as_asked (w : want) (q : params) (m : modem) : Prop :=
  m_lora m = true /\ modulation q m /\ m_preamble m = p_preamble_len q /\ m_sync m = sync_word (w_pub w) /\
  (forall f, w_freq w = Some f -> f < 4096000000 -> carrier 25 f m) /\ (forall p, w_dbm w = Some p -> m_dbm10 m = Some (10 * p)).
Lemma K_asked H c0 tr h s o v s' es hi its q : henv_ok H -> does126 H tr h s o v s' es hi its -> starts_radio o -> w_up (wants tr) = true -> w_par (wants tr) = Some q ->
  exists m, k_acts (chip126 c0 (hi ++ its)) = k_acts (chip126 c0 hi) ++
    [match o with PTx buf => Air m buf | PRx n symb t => Listen m (rx_mode (rx_time t)) (u8 symb) n | _ => Air m [] end] /\ as_asked (wants tr) q m.
Proof.
  intros HH D Ho Up Hq. destruct (K_started H c0 tr h s o v s' es hi its q HH D Ho Hq) as (m & EA & M & Mp & _ & M1 & M2 & M3 & M4). exists m. split; [exact EA|].
  enter c0. destruct HK as (K1 & K2 & K3 & _). destruct (K1 Up) as (T1 & S1 & S2). split; [rewrite M1, T1; reflexivity|]. split; [exact M|]. split; [exact Mp|]. split; [|split].
  - rewrite M4. cbn [modem126 m_sync]. rewrite S1, S2. destruct (w_pub (wants tr)); reflexivity.
  - intros f Ef Lf. destruct (K2 f Ef) as (Rf & Kf). pose proof (carrier_126 f (chip126 c0 hi) ltac:(lia) Kf) as C. unfold carrier in *. rewrite M2. exact C.
  - intros p Ep. rewrite M3. apply K3, Ep.
Qed.
Theorem C62_sx126x H c0 tr h s buf v s' es hi its q : henv_ok H -> does126 H tr h s (PTx buf) v s' es hi its -> w_up (wants tr) = true -> w_par (wants tr) = Some q ->
  exists m, k_acts (chip126 c0 (hi ++ its)) = k_acts (chip126 c0 hi) ++ [Air m buf] /\ as_asked (wants tr) q m.
Proof. intros HH D Up Hq. apply (K_asked H c0 tr h s (PTx buf) v s' es hi its q HH D I Up Hq). Qed.
Example C62_sx126x_case : case126 (usual ++ [PFreq 868300000; PSleep; PSetup (Mk_params 6 0 0 12 true true false); PPower (-3); PPublic false]) (PTx [1; 2; 3]) (fun c0 tr v hi its => let w := wants tr in
  w_up w && negb (w_pub w) && match w_freq w, w_dbm w, w_par w with Some f, Some p, Some q => (f =? 868300000) && (p =? -3) && (p_sf q =? 6) && (p_preamble_len q =? 12) | _, _, _ => false end).
Proof. show126 (@nil (Z * list Z)). Qed.
(** only tx() transmits *)
Theorem C62_sx126x_silent H c0 tr h s o v s' es hi its : henv_ok H -> does126 H tr h s o v s' es hi its -> (forall buf, o <> PTx buf) ->
  aired (k_acts (chip126 c0 (hi ++ its))) = aired (k_acts (chip126 c0 hi)).
Proof. intros HH D N. enter c0. rewrite Hc. eapply quiet_acts; eassumption. Qed.
Example C62_sx126x_silent_case : case126 (usual ++ [PTx [1; 2]]) PRand (fun c0 tr v hi its => (length (aired (k_acts (chip126 c0 hi))) =? 1)%nat).
Proof. show126 (@nil (Z * list Z)). Qed.

(** ** C63: reception; the time limit is in ms, a step of the chip 1/64 ms *)
Lemma rx_time_spec t : 0 <= t < 262144 \/ t = 16777215 -> rx_mode (rx_time t) = if t =? 0 then Single else if t =? 16777215 then Continuous else Timed (64 * t).
Proof.
  intro Ht. unfold rx_time, u32, u8. rewrite !Z.shiftr_div_pow2 by lia. change (2 ^ 16) with 65536. change (2 ^ 8) with 256.
  assert (G : forall x, 0 <= x < 16777216 -> 65536 * (x / 65536 mod 256) + 256 * (x / 256 mod 256) + x mod 256 = x).
  { intros x Hx. pose proof (Z.div_mod x 256 ltac:(lia)) as D1. pose proof (Z.div_mod (x / 256) 256 ltac:(lia)) as D2. rewrite Z.div_div in D2 by lia. change (256 * 256) with 65536 in D2.
    rewrite (Z.mod_small (x / 65536)) by (split; [apply Z.div_pos; lia|apply Z.div_lt_upper_bound; lia]). lia. }
  destruct (t =? 0) eqn:E0; cbn [negb andb].
  - rewrite G by lia. unfold rx_mode. rewrite E0. reflexivity.
  - destruct (t =? 16777215) eqn:E1; cbn [negb andb].
    + rewrite G by lia. unfold rx_mode. rewrite E0, E1. reflexivity.
    + rewrite Z.shiftl_mul_pow2 by lia. change (2 ^ 6) with 64. rewrite (Z.mod_small (t * 64)) by lia. rewrite G by lia. unfold rx_mode. replace (t * 64 =? 0) with false by lia. replace (t * 64 =? 16777215) with false by lia. f_equal. lia.
Qed.
Theorem C63_sx126x_partial H c0 tr h s n symb t v s' es hi its q : henv_ok H -> does126 H tr h s (PRx n symb t) v s' es hi its -> w_up (wants tr) = true -> w_par (wants tr) = Some q ->
  t < 262144 \/ t = 16777215 -> symb < 256 ->
  exists m, k_acts (chip126 c0 (hi ++ its)) = k_acts (chip126 c0 hi) ++ [Listen m (if t =? 0 then Single else if t =? 16777215 then Continuous else Timed (64 * t)) symb n] /\ as_asked (wants tr) q m.
Proof.
  intros HH D Up Hq Ht Hs. assert (Wo : rop_wf (PRx n symb t)) by apply D. destruct (K_asked H c0 tr h s (PRx n symb t) v s' es hi its q HH D I Up Hq) as (m & E & A). exists m. split; [|exact A]. cbn in Wo.
  rewrite E, rx_time_spec by lia. unfold u8. rewrite Z.mod_small by lia. reflexivity.
Qed.
Example C63_sx126x_partial_case : case126 (usual ++ [PTx [1; 2]; PFreq 869525000; PSetup (par 6 0 true)]) (PRx 255 8 500) (fun c0 tr v hi its =>
  w_up (wants tr) && match w_par (wants tr) with Some _ => true | None => false end &&
  match k_acts (chip126 c0 (hi ++ its)) with [Air _ _; Listen m (Timed k) symb n] => (k =? 32000) && (n =? 255) && (m_sf m =? 12) | _ => false end).
Proof. show126 (@nil (Z * list Z)). Qed.
(** the symbol timeout is taken modulo 256: 256 symbols become no timeout at all *)
Theorem C63_sx126x_symb_refuted : exists H c0 tr h s v s' es hi its m, henv_ok H /\ does126 H tr h s (PRx 255 256 0) v s' es hi its /\
  k_acts (chip126 c0 (hi ++ its)) = k_acts (chip126 c0 hi) ++ [Listen m Single 0 255].
Proof.
  assert (X : case126 usual (PRx 255 256 0) (fun c0 tr v hi its => w_up (wants tr) && match w_par (wants tr) with Some _ => true | None => false end)) by show126 (@nil (Z * list Z)).
  destruct X as (H & c0 & tr & h & s & v & s' & es & hi & its & HH & D & P). apply Bool.andb_true_iff in P as [P1 P2]. destruct (w_par (wants tr)) as [q|] eqn:Eq; [|discriminate].
  destruct (K_asked H c0 tr h s _ v s' es hi its q HH D I P1 Eq) as (m & E & _). exists H, c0, tr, h, s, v, s', es, hi, its, m. auto.
Qed.

(** ** C64: sync word *)
Theorem C64_sx126x H c0 tr h s b v s' es hi its : henv_ok H -> does126 H tr h s (PPublic b) v s' es hi its ->
  m_sync (modem126 (chip126 c0 (hi ++ its))) = sync_word b.
Proof. intros HH D. enter c0. rewrite Hc. destruct Sh as (-> & -> & ->). destruct b; reflexivity. Qed.
Example C64_sx126x_case : case126 usual (PPublic false) (fun c0 tr v hi its => m_sync (modem126 (chip126 c0 hi)) =? 52).
Proof. show126 (@nil (Z * list Z)). Qed.

(** ** C65: no undefined behaviour *)
Theorem C65_sx126x H h s o : henv_ok H -> may126 H h s o -> rop_wf o -> exists v s' es, call126 H o h s = Ok (v, s', es).
Proof.
  intros HH [[tr HU]|(-> & -> & hal & d & ->)] W; [eapply used_progress; eassumption|].
  destruct (call126_shape H HH d126_0 _ W (or_introl (ex_intro _ hal (ex_intro _ d eq_refl))) []) as (v & s' & its & E & _). eauto.
Qed.
Example C65_sx126x_case : case126 usual PRand (fun c0 tr v hi its => match v with RvNum x => 2147483648 <=? x | _ => false end).
Proof. show126 [(29, [0; 0; 0; 255; 255; 255; 255])]. Qed.

Print Assumptions C47_sx126x.
Print Assumptions C48_sx126x.
Print Assumptions C48_sx126x_sleep.
Print Assumptions C49_sx126x.
Print Assumptions C50_sx126x.
Print Assumptions C51_sx126x.
Print Assumptions C51_sx126x_ldro_refuted.
Print Assumptions C51_sx126x_ldro_partial.
Print Assumptions C52_sx126x.
Print Assumptions C53_sx126x.
Print Assumptions C54_sx126x.
Print Assumptions C61_sx126x.
Print Assumptions C62_sx126x.
Print Assumptions C62_sx126x_silent.
Print Assumptions C63_sx126x_partial.
Print Assumptions C63_sx126x_symb_refuted.
Print Assumptions C64_sx126x.
Print Assumptions C65_sx126x.
