(** Prop_Radio7.v -- C47, C49-C54, C61-C65 for the SX127x driver.

    [does127 H tr h s o v s' es hi its]: a driver was used by the calls [tr] (an init
    and then anything), and now [o] is called and returns [v]; [hi] and [its] are the
    SPI transactions and HAL calls before and during the call. [chip127 c0 its] is the
    state the transactions put a chip in that was in the arbitrary state [c0]. *)
From Verif Require Import LAir7 DemoRadio.

Local Ltac enter c0 := match goal with HH : henv_ok ?H, D : does127 ?H ?tr ?h ?s ?o ?v ?s' ?es ?hi ?its |- _ =>
  destruct D as (HU & W & E & Hh & He);
  destruct (used_step H c0 tr h s o v s' es hi its HH HU W E Hh He) as (bs & L & Sh & HK & Hc) end.
Definition usual := [PInit hal_full cfg; PHandler true; PFreq 868100000; PPower 14; PPublic true; PSetup (par 1 0 false)].
(** version register, image calibration done *)
Definition good := [(66, [18]); (59, [0])].

(** ** C47: every byte moves inside a chip-select window *)
Theorem C47_sx127x H h s o v s' es : henv_ok H -> may127 H h s o -> rop_wf o -> call127 H o h s = Ok (v, s', es) ->
  (exists hi, transcript h = Some hi) /\ (exists its, transcript es = Some its).
Proof.
  intros HH [[tr HU]|(-> & -> & hal & d & ->)] W E.
  - destruct (used_call H (Mk_c127 reset127 (fun _ => 0) []) tr h s o v s' es HH HU W E) as (hi & its & _ & A & B & _). eauto.
  - destruct (call_inv H (Mk_c127 reset127 (fun _ => 0) []) [] d127_0 _ v s' es HH (Forall_nil _) W (or_introl eq_refl) E) as (its & _ & -> & F & _). split; [exists []; reflexivity|exists its; apply transcript_unparse, F].
Qed.
Example C47_sx127x_case : case127 usual (PTx [1; 2; 3]) (fun c0 tr v hi its => w_up (wants tr) && (length its =? 9)%nat).
Proof. show127 good. Qed.

(** ** C49: the carrier is less than a step of 61 Hz below the request *)
Theorem C49_sx127x H c0 tr h s f v s' es hi its : henv_ok H -> does127 H tr h s (PFreq f) v s' es hi its ->
  let r := c_reg (chip127 c0 hi) in let r' := c_reg (chip127 c0 (hi ++ its)) in
  (f < 1024000000 -> carrier 19 f (modem127 r')) /\ (forall a, ~ In a [6; 7; 8] -> r' a = r a).
Proof.
  intros HH D. enter c0. cbv zeta. rewrite Hc. destruct Sh as (-> & -> & ->). split.
  - intro Hf. apply carrier_127; [cbn in W; lia|reflexivity|reflexivity|reflexivity].
  - intros a Ha. apply chips_other; [reflexivity|reflexivity|cbn in *; lia].
Qed.
Example C49_sx127x_case : case127 usual (PFreq 1023999999) (fun c0 tr v hi its => m_steps (modem127 (c_reg (chip127 c0 (hi ++ its)))) =? 16777215).
Proof. show127 good. Qed.

(** ** C50: output power *)
Theorem C50_sx127x H c0 tr h s p v s' es hi its : henv_ok H -> does127 H tr h s (PPower p) v s' es hi its ->
  let r := c_reg (chip127 c0 hi) in let r' := c_reg (chip127 c0 (hi ++ its)) in
  v = RvBool ((-4 <=? p) && (p <=? 17)) /\ (v = RvBool false -> es = []) /\ (forall a, a <> 9 -> r' a = r a) /\
  (0 <= p <= 17 -> m_dbm10 (modem127 r') = Some (10 * p)).
Proof.
  intros HH D. enter c0. cbv zeta. rewrite Hc. cbn [shape] in Sh. destruct ((p <? -4) || (17 <? p)) eqn:R; destruct Sh as (-> & -> & ->).
  - split; [f_equal; lia|]. split; [|split; [reflexivity|intros; lia]]. intros _. inversion L; subst.
    destruct (used_call H c0 _ _ _ _ _ _ _ HH HU W E) as (hi' & its' & bs' & A & B & L' & Sh' & _ & ->). cbn [shape] in Sh'. rewrite R in Sh'. destruct Sh' as (_ & _ & ->). inversion L'. reflexivity.
  - split; [f_equal; lia|]. split; [discriminate|]. split; [intros a Ha; apply chips_other; [reflexivity|reflexivity|cbn; lia]|].
    intro Hp. cbn [modem127 m_dbm10]. change (c_reg (bchips _ _) 9) with (pa_of p). change (c_reg (bchips _ _) 77) with (c_reg (chip127 c0 hi) 77). destruct HK as ((-> & _) & _). rewrite dbm_127 by lia. replace (p <? 0) with false by lia. reflexivity.
Qed.
Example C50_sx127x_case : case127 usual (PPower 17) (fun c0 tr v hi its => match v with RvBool b => b | _ => false end).
Proof. show127 good. Qed.
(** below 0 dBm the power is 0.2 dB low: 10.8 - 15 + (p + 4) *)
Theorem C50_sx127x_low_refuted : exists H c0 tr h s v s' es hi its, henv_ok H /\ does127 H tr h s (PPower (-1)) v s' es hi its /\
  v = RvBool true /\ m_dbm10 (modem127 (c_reg (chip127 c0 (hi ++ its)))) = Some (-12).
Proof.
  assert (X : case127 usual (PPower (-1)) (fun c0 tr v hi its => match v, m_dbm10 (modem127 (c_reg (chip127 c0 (hi ++ its)))) with RvBool true, Some x => x =? -12 | _, _ => false end)) by show127 good.
  destruct X as (H & c0 & tr & h & s & v & s' & es & hi & its & HH & _ & D & P). exists H, c0, tr, h, s, v, s', es, hi, its. split; [exact HH|]. split; [exact D|].
  destruct v as [|[|]| |]; try discriminate. destruct (m_dbm10 _); [|discriminate]. split; [reflexivity|f_equal; lia].
Qed.
Theorem C50_sx127x_low_partial H c0 tr h s p v s' es hi its : henv_ok H -> does127 H tr h s (PPower p) v s' es hi its ->
  -4 <= p < 0 -> m_dbm10 (modem127 (c_reg (chip127 c0 (hi ++ its)))) = Some (10 * p - 2).
Proof.
  intros HH D Hp. enter c0. rewrite Hc. cbn [shape] in Sh. replace ((p <? -4) || (17 <? p)) with false in Sh by lia. destruct Sh as (-> & -> & ->).
  cbn [modem127 m_dbm10]. change (c_reg (bchips _ _) 9) with (pa_of p). change (c_reg (bchips _ _) 77) with (c_reg (chip127 c0 hi) 77). destruct HK as ((-> & _) & _). rewrite dbm_127 by lia. replace (p <? 0) with true by lia. reflexivity.
Qed.
Example C50_sx127x_low_partial_case : case127 usual (PPower (-4)) (fun c0 tr v hi its => match v with RvBool b => b | _ => false end).
Proof. show127 good. Qed.

(** ** C51: modulation *)
Theorem C51_sx127x H c0 tr h s p v s' es hi its : henv_ok H -> does127 H tr h s (PSetup p) v s' es hi its ->
  let r := c_reg (chip127 c0 hi) in let r' := c_reg (chip127 c0 (hi ++ its)) in
  modulation p (modem127 r') /\ r' 1 mod 8 = 1 /\ (forall a, ~ In a [1; 29; 30; 38; 51; 59] -> r' a = r a) /\
  (* every register is written in standby *)
  (forall pre x post a vs, its = pre ++ Tr x :: post -> mosi x = 128 + a :: vs -> 0 < a -> a <> 1 -> c_reg (chip127 c0 (hi ++ pre)) 1 mod 8 = 1).
Proof.
  intros HH D. enter c0. cbv zeta. pose proof (K_step (relax H) c0 (wants tr) _ s (PSetup p) v s' bs W HK Sh) as HK'. rewrite Hc. destruct Sh as (-> & -> & hal & Ho & m & Hm & ->).
  pose proof (mode_chip _ c0 _ 1 m Hm ltac:(lia)) as (M1 & M2 & _ & M4 & _). cbv zeta in M1, M2, M4. set (l := _ ++ opt _ _) in *.
  assert (O : forall c1 a, ~ In a [29; 30; 38; 51; 59] -> c_reg (bchips c1 l) a = c_reg c1 a).
  { intros c1 a Ha. unfold l, opt. destruct (has_io_init hal); (apply chips_other; [page|reflexivity|cbn in *; lia]). }
  split; [|split; [|split]].
  - assert (V : forall c1, c_reg (bchips c1 l) 29 = conf1 p /\ c_reg (bchips c1 l) 30 = conf2 p /\
      c_reg (bchips c1 l) 51 = (if p_inverted_iq p then 102 else 39) /\ c_reg (bchips c1 l) 59 = (if p_inverted_iq p then 25 else 29)).
    { intro c1. unfold l, opt. destruct (has_io_init hal); repeat split. }
    rewrite bchips_app. destruct (V (bchips (chip127 c0 hi) m)) as (V1 & V2 & V4 & V5). unfold modulation. cbn [modem127 m_sf m_khz m_cr m_implicit m_crc m_iq m_ldro].
    rewrite V1, V2, V4, V5. destruct (conf1_means p W) as (-> & -> & ->). destruct (conf2_means p W) as (-> & ->). repeat split. destruct (p_inverted_iq p); reflexivity.
  - rewrite bchips_app, O by (cbn; lia). exact M1.
  - intros a Ha. cbn in Ha. rewrite bchips_app, O by (cbn; lia). apply M2. lia.
  - intros pre x post a vs Es Hx Ha1 Ha2. subst its. apply Forall2_app_inv_r in L as (b1 & b2 & L1 & L2 & Eb). inversion L2 as [|b ? b3 ? Hb L3]; subst.
    rewrite chip127_app, (like_chip _ _ L1). destruct b as [a' vs'|a' vs'|e]; cbn [like] in Hb; [|destruct x as [|[? ?] ?]; [tauto|]; destruct Hb as (-> & _ & ?); apply (f_equal (hd 0)) in Hx; cbn [mosi map fst hd] in Hx; lia|tauto].
    destruct Hb as [Hb _]. rewrite Hx in Hb. apply (f_equal (hd 0)) in Hb; cbn [hd] in Hb. assert (a' = a) by lia. subst a'.
    destruct Hm as (v0 & w0 & _ & _ & _ & _ & ->). destruct b1 as [|b0 b1]; [discriminate|]. injection Eb as <- Eb. destruct b1 as [|b0 b1]; [injection Eb as <- _ _; lia|]. injection Eb as <- Eb.
    change (BR 1 [v0] :: BW 1 [w0] :: b1) with ([BR 1 [v0]; BW 1 [w0]] ++ b1). rewrite bchips_app. set (c1 := bchips (chip127 c0 hi) _) in *. clearbody c1.
    rewrite chips_other; [exact M1| | |].
    + assert (F : forallb in_page l = true) by (unfold l, opt; destruct (has_io_init hal); reflexivity). rewrite Eb, forallb_app in F. apply Bool.andb_true_iff in F as [F _]. exact F.
    + assert (F : resets l = false) by (unfold l, opt; destruct (has_io_init hal); reflexivity). unfold resets in *. rewrite Eb, existsb_app in F. apply Bool.orb_false_iff in F as [F _]. exact F.
    + assert (F : ~ In 1 (touched l)) by (unfold l, opt; destruct (has_io_init hal); cbn; lia). unfold touched in *. rewrite Eb, flat_map_app, in_app_iff in F. tauto.
Qed.
Example C51_sx127x_case : case127 usual (PSetup (Mk_params 6 2 3 8 false true true)) (fun c0 tr v hi its =>
  let m := modem127 (c_reg (chip127 c0 (hi ++ its))) in (m_sf m =? 12) && (m_khz m =? 500) && (m_cr m =? 4) && match m_iq m with Some b => b | None => false end).
Proof. show127 good. Qed.
(** low data rate optimisation follows the spreading factor alone *)
Theorem C51_sx127x_ldro_refuted : exists H c0 tr h s v s' es hi its, henv_ok H /\ does127 H tr h s (PSetup (par 6 2 false)) v s' es hi its /\
  long_symbols (par 6 2 false) = false /\ m_ldro (modem127 (c_reg (chip127 c0 (hi ++ its)))) = true.
Proof.
  assert (X : case127 usual (PSetup (par 6 2 false)) (fun c0 tr v hi its => m_ldro (modem127 (c_reg (chip127 c0 (hi ++ its)))))) by show127 good.
  destruct X as (H & c0 & tr & h & s & v & s' & es & hi & its & HH & _ & D & P). exists H, c0, tr, h, s, v, s', es, hi, its. auto.
Qed.
Theorem C51_sx127x_ldro_partial H c0 tr h s p v s' es hi its : henv_ok H -> does127 H tr h s (PSetup p) v s' es hi its ->
  m_ldro (modem127 (c_reg (chip127 c0 (hi ++ its)))) = (5 <=? p_sf p) /\
  (p_bw p = 0 \/ p_bw p = 1 /\ p_sf p <> 5 \/ p_sf p < 5 -> m_ldro (modem127 (c_reg (chip127 c0 (hi ++ its)))) = long_symbols p).
Proof.
  intros HH D. enter c0. rewrite Hc. destruct Sh as (-> & -> & hal & Ho & m & Hm & ->). rewrite bchips_app.
  assert (V : forall c1, m_ldro (modem127 (c_reg (bchips c1 ([BW 29 [conf1 p]; BW 30 [conf2 p]; BW 38 [conf3 p]; BW 51 [if p_inverted_iq p then 102 else 39]; BW 59 [if p_inverted_iq p then 25 else 29]] ++ opt (has_io_init hal) HIoInit)))) = (5 <=? p_sf p)).
  { intro c1. rewrite <- (conf3_means p). unfold opt. destruct (has_io_init hal); reflexivity. }
  rewrite V. split; [reflexivity|]. destruct W as (W1 & W2 & _). intro Hp. unfold long_symbols.
  assert (E1 : p_sf p = 0 \/ p_sf p = 1 \/ p_sf p = 2 \/ p_sf p = 3 \/ p_sf p = 4 \/ p_sf p = 5 \/ p_sf p = 6) by lia. assert (E2 : p_bw p = 0 \/ p_bw p = 1 \/ p_bw p = 2) by lia.
  destruct E2 as [E2|[E2|E2]], E1 as [E1|[E1|[E1|[E1|[E1|[E1|E1]]]]]]; rewrite E1, E2 in *; try reflexivity; lia.
Qed.
Example C51_sx127x_ldro_partial_case : case127 usual (PSetup (par 6 1 false)) (fun c0 tr v hi its => long_symbols (par 6 1 false)).
Proof. show127 good. Qed.

(** ** C52: after setup(), tx() sends exactly the given bytes, once *)
Theorem C52_sx127x H c0 tr h s buf v s' es hi its : henv_ok H -> does127 H tr h s (PTx buf) v s' es hi its -> w_ready (wants tr) = true ->
  c_acts (chip127 c0 (hi ++ its)) = c_acts (chip127 c0 hi) ++ [Air (modem127 (c_reg (chip127 c0 hi))) buf].
Proof. intros HH D R. enter c0. rewrite Hc. eapply tx_acts; [exact Sh|apply HK, R|apply W]. Qed.
Example C52_sx127x_case : case127 (usual ++ [PRx 255 8 0; PSetup (par 1 0 false)]) (PTx [1; 2; 3]) (fun c0 tr v hi its => w_ready (wants tr)).
Proof. show127 good. Qed.

(** ** C53: a received packet *)
Theorem C53_sx127x_partial H c0 tr h s cap v s' es hi its : henv_ok H -> does127 H tr h s (PRead cap) v s' es hi its ->
  exists ptr n data raw snr, v = RvPkt (Mk_rxpkt data (offset tr + raw) (Z.quot (s8 snr) 4)) /\
    reads127 0 its = data /\ reads127 16 its = [ptr] /\ reads127 19 its = [n] /\ reads127 25 its = [snr] /\ reads127 26 its = [raw] /\
    len data = Z.min cap n /\ bytes_ok data /\ is_byte snr /\ is_byte raw /\
    (* the bytes are those at the start of the packet *)
    (forall pre x post, its = pre ++ Tr x :: post -> hd 1 (mosi x) = 0 -> c_reg (chip127 c0 (hi ++ pre)) 13 = ptr).
Proof.
  intros HH D. enter c0. destruct (used_kept H tr h s HH HU) as [_ Hoff]. destruct Sh as (-> & ptr & n & data & snr & rssi & Bp & Bn & Bd & Hl & Bs & Br & -> & Eb).
  exists ptr, n, data, rssi, snr. rewrite Hoff.
  pose proof (offset_range tr) as Ho.
  assert (ES : s16 (offset tr + rssi) = offset tr + rssi).
  { unfold is_byte in Br. unfold s16. set (x := offset tr + rssi) in *. cbv zeta. pose proof (Z.div_mod x 65536 ltac:(lia)) as Dx. pose proof (Z.mod_pos_bound x 65536 ltac:(lia)) as Mx.
    assert (x / 65536 = 0 \/ x / 65536 = -1) by (assert (-1 <= x / 65536 < 1) by (split; [apply Z.div_le_lower_bound; lia|apply Z.div_lt_upper_bound; lia]); lia). destruct (x mod 65536 <? 32768) eqn:?; lia. }
  rewrite ES. split; [reflexivity|].
  assert (R : reads127 0 its = data /\ reads127 16 its = [ptr] /\ reads127 19 its = [n] /\ reads127 25 its = [snr] /\ reads127 26 its = [rssi]).
  { destruct (like_reads 0 _ _ L ltac:(lia)) as [-> _]. destruct (like_reads 16 _ _ L ltac:(lia)) as [-> _]. destruct (like_reads 19 _ _ L ltac:(lia)) as [-> _].
    destruct (like_reads 25 _ _ L ltac:(lia)) as [-> _]. destruct (like_reads 26 _ _ L ltac:(lia)) as [-> _]. subst bs.
    destruct (0 <? Z.min cap n) eqn:Z0; cbn; rewrite ?app_nil_r; repeat split. destruct data; [reflexivity|]. rewrite len_cons in Hl. unfold len in Hl. lia. }
  destruct R as (R1 & R2 & R3 & R4 & R5). repeat (split; [assumption|]).
  intros pre x post Es Hx. subst its. apply Forall2_app_inv_r in L as (b1 & b2 & L1 & L2 & Eb'). rewrite Eb in Eb'. clear Eb Hc. inversion L2 as [|b ? b3 ? Hb L3]; subst. rewrite chip127_app, (like_chip _ _ L1).
  assert (X : exists vs, b = BR 0 vs).
  { destruct b as [a' vs'|a' vs'|e]; cbn [like] in Hb; [destruct Hb as [Hb ?]; rewrite Hb in Hx; cbn [hd] in Hx; lia| |tauto]. destruct x as [|[? ?] ?]; [tauto|]. destruct Hb as (-> & _ & _). cbn in Hx. subst. eauto. }
  destruct X as [vs ->]. destruct (0 <? Z.min cap n).
  - do 3 (destruct b1 as [|? b1]; [discriminate|]; injection Eb' as <- Eb'). destruct b1 as [|? b1]; [reflexivity|]. injection Eb' as <- Eb'. do 2 (destruct b1 as [|? b1]; [discriminate|]; injection Eb' as <- Eb'). destruct b1; discriminate.
  - do 5 (destruct b1 as [|? b1]; [discriminate|]; injection Eb' as <- Eb'). destruct b1; discriminate.
Qed.
Example C53_sx127x_partial_case : case127 (usual ++ [PRx 255 8 0; PIrq]) (PRead 2) (fun c0 tr v hi its => match v with
  | RvPkt p => zlist_eqb (rx_data p) [7; 8] && (rx_rssi p =? -104) && (rx_snr p =? -2) | _ => false end).
Proof. show127 (good ++ [(16, [32]); (19, [3]); (0, [7; 8; 9]); (25, [246]); (26, [60])]). Qed.
(** The data sheet (5.5.5): -157 + raw on the HF port (above 779 MHz), -164 + raw below
    525 MHz, to which a negative SNR is added. *)
Definition rssi127 (f raw snr : Z) : Z := (if 779000000 <=? f then -157 else -164) + raw + (if s8 snr <? 0 then Z.quot (s8 snr) 4 else 0).
(** The driver takes -164 at 868.1 MHz because the power is 14 dBm, and ignores the SNR. *)
Theorem C53_sx127x_rssi_refuted : exists H tr h s v s' es hi its d r q, henv_ok H /\ does127 H tr h s (PRead 255) v s' es hi its /\
  w_freq (wants tr) = Some 868100000 /\ reads127 26 its = [60] /\ reads127 25 its = [20] /\ v = RvPkt (Mk_rxpkt d r q) /\ r <> rssi127 868100000 60 20.
Proof.
  assert (X : case127 (usual ++ [PRx 255 8 0; PIrq]) (PRead 255) (fun c0 tr v hi its => match v with RvPkt p => (rx_rssi p =? -104) | _ => false end &&
    match w_freq (wants tr) with Some f => f =? 868100000 | None => false end && zlist_eqb (reads127 26 its) [60] && zlist_eqb (reads127 25 its) [20]))
    by show127 (good ++ [(16, [32]); (19, [3]); (0, [7; 8; 9]); (25, [20]); (26, [60])]).
  destruct X as (H & c0 & tr & h & s & v & s' & es & hi & its & HH & _ & D & P). apply Bool.andb_true_iff in P as [P P4]. apply Bool.andb_true_iff in P as [P P3]. apply Bool.andb_true_iff in P as [P P2].
  destruct v as [| | |[d r q]]; try discriminate. destruct (w_freq (wants tr)) as [f|] eqn:F; [|discriminate]. exists H, tr, h, s, (RvPkt (Mk_rxpkt d r q)), s', es, hi, its, d, r, q.
  cbn [rx_rssi] in P. apply zlist_eqb_eq in P3, P4. split; [exact HH|]. split; [exact D|]. split; [rewrite F; f_equal; lia|]. split; [exact P3|]. split; [exact P4|]. split; [reflexivity|]. cbn. lia.
Qed.

(** ** C54: interrupt flags: 3 TX done, 6 RX done, 7 RX timeout, 5 CRC error *)
Theorem C54_sx127x H tr h s v s' es hi its : henv_ok H -> does127 H tr h s PIrq v s' es hi its ->
  exists f g, let m := mask (bit f 3) (bit f 6) (bit f 7) (bit f 5) in
    is_byte f /\ reads127 18 its = [f] /\ v = RvNum m /\ user_calls its = (if handler tr then [m] else []) /\
    (* each flag reported is cleared, by writing a 1, and no other *)
    writes127 18 its = [g] /\ (forall i, 0 <= i < 8 -> bit g i = bit f i && ((i =? 3) || (5 <=? i))) /\ 0 <= g < 256.
Proof.
  intros HH D. enter (Mk_c127 reset127 (fun _ => 0) []). destruct (used_kept H tr h s HH HU) as [Hha _]. destruct Sh as (-> & f & Bf & -> & ->). rewrite Hha in L.
  exists f, (fst (irq_flags f)). cbv zeta. split; [exact Bf|].
  destruct (like_reads 18 _ _ L ltac:(lia)) as [-> ->]. destruct (like_calls _ _ L) as [_ ->].
  pose (P := fun f => (snd (irq_flags f) =? mask (bit f 3) (bit f 6) (bit f 7) (bit f 5)) &&
    forallb (fun k => let i := Z.of_nat k in Bool.eqb (bit (fst (irq_flags f)) i) (bit f i && ((i =? 3) || (5 <=? i)))) (seq 0 8) && (0 <=? fst (irq_flags f)) && (fst (irq_flags f) <? 256)).
  assert (A : P f = true) by (apply (all_below P 256); [vm_compute; reflexivity|exact Bf]). unfold P in A.
  apply Bool.andb_true_iff in A as [A A4]. apply Bool.andb_true_iff in A as [A A3]. apply Bool.andb_true_iff in A as [A1 A2]. assert (A1' : snd (irq_flags f) = mask (bit f 3) (bit f 6) (bit f 7) (bit f 5)) by lia.
  rewrite A1'. unfold opt. split; [destruct (handler tr); reflexivity|]. split; [reflexivity|]. split; [destruct (handler tr); reflexivity|]. split; [destruct (handler tr); reflexivity|]. split; [|lia].
  intros i Hi. rewrite forallb_forall in A2. specialize (A2 (Z.to_nat i)). cbv zeta in A2. rewrite Z2Nat.id in A2 by lia. apply Bool.eqb_prop, A2. apply in_seq. lia.
Qed.
Example C54_sx127x_case : case127 (usual ++ [PRx 255 8 0]) PIrq (fun c0 tr v hi its => handler tr && match v with RvNum m => (m =? 10) | _ => false end).
Proof. show127 (good ++ [(18, [116])]). Qed.

(** ** C61: the reset pulse *)
Theorem C61_sx127x H p tr h s hi : henv_ok H -> used127 H tr h s -> transcript h = Some hi -> rs_run p hi = Some (RsUp true).
Proof. intros HH HU Hh. destruct (used_rs H p tr h s HH HU) as (hi' & -> & F & R). rewrite (transcript_unparse _ F) in Hh. injection Hh as <-. exact R. Qed.
Example C61_sx127x_case : case127 (usual ++ [PInit hal_full cfg; PSleep]) PRand (fun c0 tr v hi its => (length (filter (fun i => match i with Do (HReset true) => true | _ => false end) hi) =? 2)%nat).
Proof. show127 good. Qed.

(** ** C62: what is on the air is what was asked for *)
Definition as_asked (w : want) (m : modem) : Prop :=
  m_lora m = true /\ (forall f, w_freq w = Some f -> f < 1024000000 -> carrier 19 f m) /\
  (forall p, w_dbm w = Some p -> 0 <= p -> m_dbm10 m = Some (10 * p)) /\ (w_pub w = true -> m_sync m = sync_word true) /\
  (forall p, w_par w = Some p -> modulation p m /\ m_preamble m = 8 /\ (p_bw p = 0 -> m_ldro m = long_symbols p)).
Lemma K_asked c0 H w c : K (answers127 c0 H) w c -> answers127 c0 H -> w_up w = true -> (forall f, w_freq w = Some f -> 0 <= f) -> as_asked w (modem127 (c_reg c)).
Proof.
  intros HK HA HU Hf. pose proof HK as ((K77 & K32 & K33) & _ & K3 & K4 & K5 & K6 & K7). split; [apply K3; assumption|]. split; [|split; [|split]].
  - intros f Ef Lf. destruct (K4 f Ef) as (A & B & D). apply carrier_127; auto.
  - intros p Ep Hp. destruct (K5 p Ep) as (R & R9). cbn [modem127 m_dbm10]. rewrite R9, K77, dbm_127 by exact R. replace (p <? 0) with false by lia. reflexivity.
  - intro Hp. rewrite Hp in K7. cbn [modem127 m_sync]. apply K7, HU.
  - intros p Ep. destruct (K_modulation _ w c p HK HA Ep) as (M & LD & Wp). split; [exact M|]. cbn [modem127 m_preamble]. rewrite K32, K33. split; [reflexivity|].
    intro B0. rewrite LD. unfold long_symbols. rewrite B0. destruct Wp as (W1 & _).
    assert (E1 : p_sf p = 0 \/ p_sf p = 1 \/ p_sf p = 2 \/ p_sf p = 3 \/ p_sf p = 4 \/ p_sf p = 5 \/ p_sf p = 6) by lia. destruct E1 as [->|[->|[->|[->|[->|[->| ->]]]]]]; reflexivity.
Qed.
Lemma wants_freq tr f : rtrace_wf tr -> w_freq (wants tr) = Some f -> 0 <= f.
Proof.
  intros [W _]. unfold wants. assert (G : forall l w, Forall (fun t : rentry => rop_wf (fst (fst t))) l -> (forall f, w_freq w = Some f -> 0 <= f) -> forall f, w_freq (fold_left (fun w t => see w (fst (fst t)) (snd (fst t))) l w) = Some f -> 0 <= f).
  { induction l as [|[[o v] es] l IH]; intros w HF Hw f0 E; [apply Hw, E|]. inversion HF as [|? ? Ho HF']; subst. cbn [fold_left fst snd] in E. revert E. apply IH; [exact HF'|]. cbn [fst] in Ho.
    intros f1. destruct o; cbn [see]; try (destruct v as [|[|]| |]); cbn [not_ready w_freq]; try discriminate; try apply Hw; intro E; injection E as <-; cbn in Ho; lia. }
  apply G; [exact W|discriminate].
Qed.
Theorem C62_sx127x_partial H c0 tr h s buf v s' es hi its : henv_ok H -> answers127 c0 H -> does127 H tr h s (PTx buf) v s' es hi its ->
  w_up (wants tr) = true -> w_ready (wants tr) = true ->
  exists m, c_acts (chip127 c0 (hi ++ its)) = c_acts (chip127 c0 hi) ++ [Air m buf] /\ as_asked (wants tr) m.
Proof.
  intros HH HA D HU' R. eexists. split; [eapply C52_sx127x; eassumption|]. enter c0. eapply K_asked; [exact HK|exact HA|exact HU'|]. intros f. apply wants_freq, HU.
Qed.
Example C62_sx127x_partial_case : case127 (usual ++ [PFreq 868300000; PSleep; PSetup (par 6 0 true); PPower 16]) (PTx [1; 2; 3]) (fun c0 tr v hi its => let w := wants tr in
  w_up w && w_ready w && match w_freq w, w_dbm w, w_par w with Some f, Some p, Some q => (f =? 868300000) && (p =? 16) && (p_sf q =? 6) | _, _, _ => false end).
Proof. show127 good. Qed.
(** the preamble length asked for is ignored *)
Theorem C62_sx127x_preamble_refuted : exists H c0 tr h s v s' es hi its m p, henv_ok H /\ answers127 c0 H /\ does127 H tr h s (PTx [1]) v s' es hi its /\
  w_par (wants tr) = Some p /\ c_acts (chip127 c0 (hi ++ its)) = c_acts (chip127 c0 hi) ++ [Air m [1]] /\ p_preamble_len p = 12 /\ m_preamble m = 8.
Proof.
  assert (X : case127 (usual ++ [PSetup (Mk_params 1 0 0 12 true false false)]) (PTx [1]) (fun c0 tr v hi its => w_up (wants tr) && w_ready (wants tr) && match w_par (wants tr) with Some p => p_preamble_len p =? 12 | None => false end)) by show127 good.
  destruct X as (H & c0 & tr & h & s & v & s' & es & hi & its & HH & HA & D & P). apply Bool.andb_true_iff in P as [P P3]. apply Bool.andb_true_iff in P as [P1 P2].
  destruct (C62_sx127x_partial H c0 tr h s _ v s' es hi its HH HA D P1 P2) as (m & Em & Hm). destruct (w_par (wants tr)) as [p|] eqn:Ep; [|discriminate]. exists H, c0, tr, h, s, v, s', es, hi, its, m, p.
  repeat (split; [assumption|]). split; [lia|]. apply (proj2 (proj2 (proj2 (proj2 Hm)))) in Ep. apply Ep.
Qed.
(** only tx() transmits *)
Theorem C62_sx127x_silent H c0 tr h s o v s' es hi its : henv_ok H -> does127 H tr h s o v s' es hi its -> (forall buf, o <> PTx buf) ->
  aired (c_acts (chip127 c0 (hi ++ its))) = aired (c_acts (chip127 c0 hi)).
Proof. intros HH D N. enter c0. rewrite Hc. eapply quiet_acts; eassumption. Qed.
Example C62_sx127x_silent_case : case127 (usual ++ [PTx [1; 2]]) PRand (fun c0 tr v hi its => (length (aired (c_acts (chip127 c0 hi))) =? 1)%nat).
Proof. show127 good. Qed.

(** ** C63: reception *)
Theorem C63_sx127x_partial H c0 tr h s n symb t v s' es hi its : henv_ok H -> answers127 c0 H -> does127 H tr h s (PRx n symb t) v s' es hi its ->
  w_up (wants tr) = true -> (exists p, w_par (wants tr) = Some p) -> t = 0 \/ t = 16777215 -> symb < 1024 ->
  exists m, c_acts (chip127 c0 (hi ++ its)) = c_acts (chip127 c0 hi) ++ [Listen m (if t =? 0 then Single else Continuous) symb n] /\ as_asked (wants tr) m.
Proof.
  intros HH HA D HU' [p Hp] Ht Hs. enter c0. rewrite Hc.
  assert (B : is_byte (c_reg (chip127 c0 hi) 30)).
  { destruct HK as (_ & _ & _ & _ & _ & K6 & _). destruct (K6 p Hp) as (Wp & _ & E30 & _). specialize (E30 HA). pose proof (conf2_byte p Wp) as Bq. unfold is_byte in *.
    pose proof (Z.div_mod (c_reg (chip127 c0 hi) 30) 4 ltac:(lia)). pose proof (Z.mod_pos_bound (c_reg (chip127 c0 hi) 30) 4 ltac:(lia)). assert (0 <= conf2 p / 4 < 64) by (split; [apply Z.div_pos; lia|apply Z.div_lt_upper_bound; lia]). lia. }
  destruct (rx_acts _ c0 _ s n symb t v s' bs Sh HA B) as (m & Em & ->). eexists. split; [rewrite Em; cbn in W; rewrite Z.mod_small by lia; reflexivity|].
  eapply K_asked; [exact HK|exact HA|exact HU'|]. intros f. apply wants_freq, HU.
Qed.
Example C63_sx127x_partial_case : case127 (usual ++ [PTx [1; 2]; PFreq 869525000; PSetup (par 6 0 true)]) (PRx 255 300 0) (fun c0 tr v hi its =>
  w_up (wants tr) && match w_par (wants tr) with Some _ => true | None => false end &&
  match c_acts (chip127 c0 (hi ++ its)) with [Air _ _; Listen m Single k n] => (k =? 300) && (n =? 255) && (m_sf m =? 12) | _ => false end).
Proof. show127 good. Qed.
(** a time limit other than 0 makes the chip listen forever *)
Theorem C63_sx127x_timed_refuted : exists H c0 tr h s v s' es hi its m k, henv_ok H /\ answers127 c0 H /\ does127 H tr h s (PRx 255 8 500) v s' es hi its /\
  c_acts (chip127 c0 (hi ++ its)) = c_acts (chip127 c0 hi) ++ [Listen m Continuous k 255].
Proof.
  assert (X : case127 usual (PRx 255 8 500) (fun c0 tr v hi its => match c_acts (chip127 c0 hi), c_acts (chip127 c0 (hi ++ its)) with [], [Listen m Continuous k n] => n =? 255 | _, _ => false end)) by show127 good.
  destruct X as (H & c0 & tr & h & s & v & s' & es & hi & its & HH & HA & D & P). destruct (c_acts (chip127 c0 hi)) eqn:E1; [|discriminate]. destruct (c_acts (chip127 c0 (hi ++ its))) as [|[|m k symb n] [|]] eqn:E2; try discriminate; destruct k; try discriminate.
  exists H, c0, tr, h, s, v, s', es, hi, its, m, symb. split; [exact HH|]. split; [exact HA|]. split; [exact D|]. rewrite E1, E2. cbn. repeat f_equal. lia.
Qed.

(** ** C64: sync word *)
Theorem C64_sx127x_partial H c0 tr h s v s' es hi its : henv_ok H -> does127 H tr h s (PPublic true) v s' es hi its ->
  m_sync (modem127 (c_reg (chip127 c0 (hi ++ its)))) = sync_word true.
Proof. intros HH D. enter c0. rewrite Hc. destruct Sh as (-> & -> & ->). reflexivity. Qed.
Example C64_sx127x_partial_case : case127 (usual ++ [PPublic false]) (PPublic true) (fun c0 tr v hi its => negb (m_sync (modem127 (c_reg (chip127 c0 hi))) =? 52)).
Proof. show127 good. Qed.
(** private networks use 0x12, the driver sets 0x14 *)
Theorem C64_sx127x_private_refuted H c0 tr h s v s' es hi its : henv_ok H -> does127 H tr h s (PPublic false) v s' es hi its ->
  m_sync (modem127 (c_reg (chip127 c0 (hi ++ its)))) = 20 /\ sync_word false = 18.
Proof. intros HH D. enter c0. rewrite Hc. destruct Sh as (-> & -> & ->). split; reflexivity. Qed.
Example C64_sx127x_private_case : case127 usual (PPublic false) (fun c0 tr v hi its => true).
Proof. show127 good. Qed.

(** ** C65: no undefined behaviour *)
Theorem C65_sx127x H h s o : henv_ok H -> may127 H h s o -> rop_wf o -> (o = PRand -> h_strict_shl H = false) -> exists v s' es, call127 H o h s = Ok (v, s', es).
Proof.
  intros HH [[tr HU]|(-> & -> & hal & d & ->)] W Hr; [eapply used_progress; eassumption|].
  destruct (call127_shape H HH (Mk_c127 reset127 (fun _ => 0) []) _ d127_0 _ W (or_introl (ex_intro _ hal (ex_intro _ d eq_refl))) Hr [] (Forall_nil _) eq_refl) as (v & s' & its & E & _). eauto.
Qed.
Example C65_sx127x_case : case127 usual PRand (fun c0 tr v hi its => match v with RvNum x => 0 <? x | _ => false end).
Proof. show127 (good ++ [(44, [255])]). Qed.
Lemma ub_shiftb {A} (r : res A) : match r with Undef UB_shift => true | _ => false end = true -> r = Undef UB_shift.
Proof. destruct r as [|[]]; try discriminate. reflexivity. Qed.
(** [(rssi & 1) << 31] overflows int (C11 6.5.7p4) whenever the last noise bit is 1 *)
Theorem C65_sx127x_rand_refuted : exists H tr h s, henv_ok H /\ h_strict_shl H = true /\ used127 H tr h s /\ call127 H PRand h s = Undef UB_shift.
Proof.
  pose (H := Mk_henv (h_xfer (sim127 (good ++ [(44, [255])]) on127)) true).
  destruct (run127 H usual) as [[[tr h] s]|] eqn:E; [|vm_compute in E; discriminate].
  exists H, tr, h, s. split; [apply sim127_ok|]. split; [reflexivity|]. split; [apply (run127_used H usual); [exact E|reflexivity|reflexivity]|].
  assert (X : match run127 H usual with Some (_, h, s) => match call127 H PRand h s with Undef UB_shift => true | _ => false end | None => false end = true) by (vm_compute; reflexivity).
  rewrite E in X. apply ub_shiftb, X.
Qed.

Print Assumptions C47_sx127x.
Print Assumptions C49_sx127x.
Print Assumptions C50_sx127x.
Print Assumptions C50_sx127x_low_refuted.
Print Assumptions C50_sx127x_low_partial.
Print Assumptions C51_sx127x.
Print Assumptions C51_sx127x_ldro_refuted.
Print Assumptions C51_sx127x_ldro_partial.
Print Assumptions C52_sx127x.
Print Assumptions C53_sx127x_partial.
Print Assumptions C53_sx127x_rssi_refuted.
Print Assumptions C54_sx127x.
Print Assumptions C61_sx127x.
Print Assumptions C62_sx127x_partial.
Print Assumptions C62_sx127x_preamble_refuted.
Print Assumptions C62_sx127x_silent.
Print Assumptions C63_sx127x_partial.
Print Assumptions C63_sx127x_timed_refuted.
Print Assumptions C64_sx127x_partial.
Print Assumptions C64_sx127x_private_refuted.
Print Assumptions C65_sx127x.
Print Assumptions C65_sx127x_rand_refuted.
