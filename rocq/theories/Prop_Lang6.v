(** Prop_Lang6.v -- C101 for the SX126x driver *)
From Verif Require Import LWant6 DemoRadio SpecLang.
Local Definition usual := [PInit hal_full cfg; PHandler true; PFreq 868100000; PPower 14; PPublic true; PSetup (par 1 0 false)].
Definition bspeak (hp : bool) (b : cop) : bool :=
  match b with
  | CW _ bs => speaks126 hp bs
  | CS _ cmd vs => (length vs =? (if (cmd =? 20)%Z then 3 else 2))%nat
  | CG _ a vs => byteb (Z.shiftr a 8) && at126 (256 * Z.shiftr a 8 + Z.land a 255) (len vs)
  | CB _ off vs => byteb off
  | CD _ => true
  end.
Definition said (hp : bool) (i : item) : Prop := match i with Tr x => speaks126 hp (mosi x) = true | Do _ => True end.
Lemma low_byte a : byteb (Z.land a 255) = true.
Proof. change 255 with (Z.ones 8). rewrite Z.land_ones by lia. unfold byteb. pose proof (Z.mod_pos_bound a (2 ^ 8) ltac:(lia)). lia. Qed.
Lemma lead_said hp z l : lead z l -> Forall (said hp) l.
Proof. destruct z; [intros (x & y & Hx & Hy & ->)|intros ->]; repeat constructor; cbn; rewrite ?Hx, ?Hy; reflexivity. Qed.
Lemma like_said hp b l : like b l -> bspeak hp b = true -> Forall (said hp) l.
Proof.
  destruct b as [z bs|z cmd vs|z a vs|z off vs|e]; cbn [like bspeak]; intros Hl Hb.
  - destruct Hl as (l' & x & Hl & Hx & _ & ->). apply Forall_app. split; [apply (lead_said hp z), Hl|]. repeat constructor. cbn. rewrite Hx. exact Hb.
  - destruct Hl as (l' & x & y & Hl & Hx & Hy & Hs & ->). apply Forall_app. split; [apply (lead_said hp z), Hl|]. repeat constructor. cbn [said]. unfold mosi in *. rewrite map_app, Hx. cbn [app].
    apply Nat.eqb_eq in Hb. unfold miso in Hy. assert (L : length (map fst y) = length vs) by (rewrite <- Hy, !map_length; reflexivity). rewrite Hb in L.
    unfold status in Hs. assert (E : cmd = 18 \/ cmd = 19 \/ cmd = 20 \/ cmd = 23) by lia. destruct E as [->|[->|[->| ->]]]; cbn in L; destruct (map fst y) as [|y0 [|y1 [|y2 [|]]]]; try discriminate L; reflexivity.
  - destruct Hl as (l' & x & y & Hl & Hx & Hy & ->). apply Forall_app. split; [apply (lead_said hp z), Hl|]. repeat constructor. cbn [said]. unfold mosi in *. rewrite map_app, Hx. cbn [app speaks126].
    apply andb_prop in Hb as [B1 B2]. assert (L : len (map fst y) = len vs) by (unfold len, miso in *; rewrite <- Hy, !map_length; reflexivity). rewrite B1, low_byte, L. exact B2.
  - destruct Hl as (l' & x & y & Hl & Hx & Hy & ->). apply Forall_app. split; [apply (lead_said hp z), Hl|]. repeat constructor. cbn [said]. unfold mosi in *. rewrite map_app, Hx. cbn [app speaks126]. exact Hb.
  - destruct Hl as [-> _]. repeat constructor.
Qed.
Lemma likes_said hp bs its : likes bs its -> forallb (bspeak hp) bs = true -> Forall (said hp) its.
Proof.
  induction 1 as [|b l bs its Hb _ IH]; intro Hs; [constructor|]. cbn [forallb] in Hs. apply andb_prop in Hs as [H1 H2]. apply Forall_app. split; [apply (like_said hp b); assumption|apply IH, H2].
Qed.
Lemma u8_byte a : byteb (u8 a) = true.
Proof. unfold byteb, u8. pose proof (Z.mod_pos_bound a 256 ltac:(lia)). lia. Qed.
Lemma is_byteb b : is_byte b -> byteb b = true. Proof. unfold is_byte, byteb. lia. Qed.
Lemma bytes_b l : bytes_ok l -> forallb byteb l = true.
Proof. intro B. apply forallb_forall. intros b Hb. apply is_byteb. unfold bytes_ok in B. rewrite Forall_forall in B. exact (B b Hb). Qed.
Lemma two_bytes n : 0 <= n < 65536 -> 256 * u8 (Z.shiftr n 8) + Z.land n 255 = n.
Proof. intro B. change 255 with (Z.ones 8). rewrite Z.land_ones, Z.shiftr_div_pow2 by lia. change (2 ^ 8) with 256. unfold u8. pose proof (Z.div_mod n 256 ltac:(lia)). pose proof (Z.div_lt_upper_bound n 256 256 ltac:(lia) ltac:(lia)). pose proof (Z.div_pos n 256 ltac:(lia) ltac:(lia)). rewrite (Z.mod_small (n / 256) 256) by lia. lia. Qed.
Lemma b2z_bit b : within 0 1 (b2z b) = true. Proof. destruct b; reflexivity. Qed.
Lemma signed_u8 p : -128 <= p < 128 -> signed8 (u8 p) = p.
Proof.
  intro B. unfold signed8, u8. destruct (Z_lt_le_dec p 0) as [N|N].
  - replace (p mod 256) with (p + 256); [replace (p + 256 <? 128) with false by lia; lia|]. symmetry. rewrite <- (Z.mod_small (p + 256) 256) by lia. rewrite <- (Z.mod_add p 1 256) by lia. f_equal.
  - rewrite Z.mod_small by lia. replace (p <? 128) with true by lia. reflexivity.
Qed.
Lemma clamp_byte g : is_byte g -> byteb (Z.lor g 30) = true.
Proof.
  intro B. apply is_byteb. unfold is_byte in *. split; [apply Z.lor_nonneg; lia|]. destruct (Z.eq_dec (Z.lor g 30) 0) as [->|N]; [lia|].
  assert (0 <= Z.lor g 30) by (apply Z.lor_nonneg; lia). enough (Z.lor g 30 < 2 ^ 8) by lia. apply Z.log2_lt_pow2; [lia|]. rewrite Z.log2_lor by lia. change (Z.log2 30) with 4.
  assert (Z.log2 g <= 7); [|lia]. destruct (Z.eq_dec g 0) as [->|Ng]; [cbn; lia|]. assert (Z.log2 g < 8); [|lia]. apply Z.log2_lt_pow2; lia.
Qed.
Lemma pkt_speak hp z p g n : params_wf p -> 1 <= p_preamble_len p -> is_byte g -> is_byte n -> forallb (bspeak hp) (pkt z p g n) = true.
Proof.
  intros (_ & _ & _ & B) P Bg Bn. unfold pkt. cbn [forallb bspeak].
  assert (E : speaks126 hp [13; 7; 54; if p_inverted_iq p then u8 (Z.land g (Z.lnot 4)) else u8 (Z.lor g 4)] = true).
  { cbn [speaks126]. change (at126 (256 * 7 + 54) (len _)) with true. cbn [forallb]. destruct (p_inverted_iq p); rewrite u8_byte; reflexivity. }
  rewrite E. cbn [speaks126]. rewrite u8_byte, low_byte, !b2z_bit, (two_bytes _ B), (is_byteb _ Bn). replace (p_preamble_len p =? 0) with false by lia. reflexivity.
Qed.
Lemma rx_speak hp hal symb t : forallb (bspeak hp) (rx_tail hal symb t) = true.
Proof. unfold rx_tail, opt. destruct (has_ant hal); cbn [app forallb bspeak speaks126]; rewrite !u8_byte; reflexivity. Qed.
Lemma sleep_speak hp z hal : forallb (bspeak hp) (sleep_ops z hal) = true.
Proof. unfold sleep_ops, opt. destruct (has_io_deinit hal); reflexivity. Qed.
Lemma nth_all f l n : forallb f l = true -> (n < length l)%nat -> f (nth n l 0) = true.
Proof. intros F L. rewrite forallb_forall in F. apply F, nth_In, L. Qed.
Lemma shape_speak s o v s' bs hp w c : shape s o v s' bs -> rop_wf o -> volts_ok o -> preamble_ok w o -> K w s c ->
  (forall d, b_opts s = Some d -> (forall hal d', o <> PInit hal d') -> is_hp d = hp) -> forallb (bspeak hp) bs = true.
Proof.
  intros Sh W V P (_ & _ & _ & KP) Hp.
  destruct o as [hal d| |f|q|b|q|buf|n symb t|cap| | |b]; cbn [shape rop_wf volts_ok preamble_ok] in *.
  - destruct Sh as (e0 & e1 & B0 & B1 & _ & _ & ->). destruct W as [W1 W2]. rewrite !forallb_app.
    assert (E1 : forallb (bspeak hp) (init_head hal d) = true).
    { unfold init_head, tcxo_ops, opt. destruct (use_tcxo d); [specialize (V eq_refl)|]; destruct (has_io_deinit hal); cbn [app forallb bspeak speaks126]; rewrite ?u8_byte; try reflexivity;
      (assert (Q : within 0 7 (tcxo_voltage d) = true) by (unfold within, is_byte in *; lia)); rewrite Q; reflexivity. }
    rewrite E1. destruct ((e0 =? 0) && (e1 =? 0)); [|reflexivity]. unfold init_tail. rewrite !forallb_app, sleep_speak. destruct (use_dcdc d); reflexivity.
  - destruct Sh as (_ & _ & hal & _ & ->). apply sleep_speak.
  - destruct Sh as (_ & _ & ->). cbn [forallb bspeak]. unfold frf_bytes. cbn [speaks126 forallb]. rewrite !low_byte. reflexivity.
  - destruct Sh as (d & Ho & Sh). specialize (Hp d Ho ltac:(discriminate)). subst hp. unfold in_range in Sh. destruct (is_hp d) eqn:Eh.
    + destruct ((-9 <=? q) && (q <=? 22)) eqn:R; destruct Sh as (_ & _ & Sh); [|subst; reflexivity]. destruct Sh as (g & Bg & ->). cbn [forallb bspeak speaks126].
      rewrite (clamp_byte g Bg), u8_byte, (signed_u8 q W). change (within (-9) 22 q) with ((-9 <=? q) && (q <=? 22)). rewrite R. reflexivity.
    + destruct ((-17 <=? q) && (q <=? 15)) eqn:R; destruct Sh as (_ & _ & ->); [|reflexivity]. destruct (q =? 15) eqn:Q15; [reflexivity|]. cbn [app forallb bspeak speaks126].
      rewrite u8_byte, (signed_u8 q W). assert (R' : within (-17) 14 q = true) by (unfold within; lia). rewrite R'. reflexivity.
  - destruct Sh as (_ & _ & ->). destruct b; reflexivity.
  - destruct Sh as (_ & _ & hal & _ & ->). destruct W as (W1 & W2 & W3 & _). rewrite forallb_app.
    assert (O : forallb (bspeak hp) (opt (has_io_init hal) HIoInit) = true) by (unfold opt; destruct (has_io_init hal); reflexivity). rewrite O.
    cbn [forallb bspeak speaks126]. rewrite (nth_all (within 5 12) sf_table), (nth_all (within 4 6) bw_table), (nth_all (within 1 4) cr_table); [|reflexivity|cbn; lia..|reflexivity|cbn; lia|reflexivity|cbn; lia]. destruct (SF_11 <=? p_sf q); reflexivity.
  - destruct Sh as (_ & _ & hal & _ & g & Bg & ->). destruct P as (p & Pp & P1). destruct (KP p Pp) as (Wp & -> & _). destruct W as [Wb Wl].
    rewrite forallb_app, pkt_speak; [|exact Wp|exact P1|exact Bg|unfold is_byte; unfold len in *; lia].
    unfold opt. destruct (has_ant hal); cbn [app forallb bspeak speaks126]; rewrite (bytes_b buf Wb); replace (0 + len buf <=? 256) with true by lia; reflexivity.
  - destruct Sh as (_ & _ & hal & _ & g & Bg & ->). destruct P as (p & Pp & P1). destruct (KP p Pp) as (Wp & -> & _). rewrite forallb_app, pkt_speak, rx_speak; [reflexivity|exact Wp|exact P1|exact Bg|apply W].
  - destruct Sh as (_ & n & off & data & p0 & p1 & p2 & _ & Bo & _ & _ & _ & _ & _ & _ & ->). cbn [forallb bspeak]. rewrite (is_byteb off Bo). reflexivity.
  - destruct Sh as (_ & hal & _ & g & r0 & r1 & r2 & r3 & Bg & _ & _ & _ & _ & _ & ->). destruct P as (p & Pp & P1). destruct (KP p Pp) as (Wp & -> & _).
    rewrite !forallb_app, pkt_speak, rx_speak, sleep_speak; [reflexivity|exact Wp|exact P1|exact Bg|unfold is_byte; lia].
  - destruct Sh as (_ & x & y & Bx & By & _ & ->). unfold opt. destruct (b_handler s); cbn [app forallb bspeak speaks126]; rewrite (is_byteb x Bx), (is_byteb y By); reflexivity.
  - destruct Sh as (_ & _ & ->). reflexivity.
Qed.

(** ** C101: every transfer is a command of the data sheet with parameters it allows.
    Missing: tx(), rx() and rand() without a setup() since init (below). *)
Theorem C101_sx126x_partial H tr h s o v s' es hi its : henv_ok H -> does126 H tr h s o v s' es hi its -> volts_ok o -> preamble_ok (wants tr) o ->
  forall x, In (Tr x) its -> speaks126 (hp (tr ++ [(o, v, es)])) (mosi x) = true.
Proof.
  intros HH (HU & W & E & Hh & He) V P x Hx. destruct (used_step H on126 tr h s o v s' es hi its HH HU W E Hh He) as (bs & L & Sh & HK & _ & _).
  destruct (used_hp H tr h s HH HU) as (d & Hd & Eh). rewrite hp_snoc.
  assert (S : forallb (bspeak (match o with PInit _ d => is_hp d | _ => hp tr end)) bs = true).
  { eapply shape_speak; [exact Sh|exact W|exact V|exact P|exact HK|]. intros d' Hd' N. rewrite Hd in Hd'. injection Hd' as <-. rewrite Eh. destruct o; try reflexivity. destruct (N hal opts eq_refl). }
  pose proof (likes_said _ _ _ L S) as F. rewrite Forall_forall in F. exact (F (Tr x) Hx).
Qed.
Print Assumptions C101_sx126x_partial.
(** the same for the first call of a program, which is init() *)
Theorem C101_sx126x_init_partial H hal d v s' es its : henv_ok H -> rop_wf (PInit hal d) -> volts_ok (PInit hal d) -> call126 H (PInit hal d) [] d126_0 = Ok (v, s', es) -> transcript es = Some its ->
  forall x, In (Tr x) its -> speaks126 (is_hp d) (mosi x) = true.
Proof.
  intros HH W V E He x Hx. change (@nil hev) with (unparse []) in E. destruct (call_inv H [] d126_0 _ v s' es HH W (or_introl eq_refl) E) as (its' & bs & -> & F & L & Sh).
  rewrite (transcript_unparse _ F) in He. injection He as ->.
  assert (S : forallb (bspeak (is_hp d)) bs = true).
  { eapply (shape_speak _ _ _ _ _ _ want0 on126); [exact Sh|exact W|exact V|exact I| |].
    - unfold K. cbn [want0 w_up w_freq w_dbm w_par]. repeat split; intros; discriminate.
    - intros d' _ N. exfalso. exact (N hal d eq_refl). }
  pose proof (likes_said _ _ _ L S) as G. rewrite Forall_forall in G. exact (G (Tr x) Hx).
Qed.
Print Assumptions C101_sx126x_init_partial.
Definition all_said (hp : bool) (its : list item) : bool := forallb (fun i => match i with Tr x => speaks126 hp (mosi x) | Do _ => true end) its.
(** a frame after sleep and a new setup; the lowest power of the SX1261, which the SX1262 does not have *)
Example C101_sx126x_case : case126 (usual ++ [PSleep; PSetup (par 2 0 true)]) (PTx [7; 8; 9; 250]) (fun c0 tr v hi its =>
  all_said (hp tr) its && match w_par (wants tr) with Some p => 1 <=? p_preamble_len p | None => false end && (5 <=? length (filter (fun i => match i with Tr _ => true | Do _ => false end) its))%nat).
Proof. show126 (@nil (Z * list Z)). Qed.
Example C101_sx126x_low_case : case126 [PInit hal_full (Sx126x.Mk_opts false false false 0 0); PFreq 868100000] (PPower (-17)) (fun c0 tr v hi its => negb (hp tr) && all_said (hp tr) its && negb (all_said true its)).
Proof. show126 (@nil (Z * list Z)). Qed.
(** rand() before the first setup(): a preamble of 0 symbols *)
Lemma used_no_setup H tr h s : henv_ok H -> used126 H tr h s -> Forall (fun t => match fst (fst t) with PSetup _ => False | _ => True end) tr -> b_params s = params0.
Proof.
  intros HH HU. destruct (used_ind H (fun tr _ s => Forall (fun t => match fst (fst t) with PSetup _ => False | _ => True end) tr -> b_params s = params0) HH) with (tr := tr) (h := h) (s := s) as (hi & A & B & _ & D); [| |exact HU|exact D].
  - intros o v s' es its bs Hi W L Sh _. destruct o; try discriminate. destruct Sh as (e0 & e1 & _ & _ & _ & -> & _). reflexivity.
  - intros tr0 hi s0 o v s' es its bs IH _ W L Sh F. apply Forall_app in F as [F1 F2]. specialize (IH F1). inversion F2 as [|? ? Fo _]; subst. cbn [fst] in Fo.
    destruct o as [hal d| |f|q|b|q|buf|n symb t|cap| | |b]; cbn [shape] in Sh; try (destruct Sh as (_ & -> & _); exact IH); try (destruct Sh as (-> & _); exact IH); try tauto.
    + destruct Sh as (e0 & e1 & _ & _ & _ & -> & _). exact IH.
    + destruct Sh as (d & Hd & Sh). destruct (in_range (is_hp d) q); destruct Sh as (_ & -> & _); exact IH.
Qed.
Theorem C101_sx126x_refuted H tr h s v s' es hi its : henv_ok H -> does126 H tr h s PRand v s' es hi its -> Forall (fun t => match fst (fst t) with PSetup _ => False | _ => True end) tr ->
  exists x, In (Tr x) its /\ mosi x = [140; 0; 0; 0; 255; 0; 0] /\ speaks126 (hp tr) (mosi x) = false.
Proof.
  intros HH (HU & W & E & Hh & He) F. destruct (used_step H on126 tr h s PRand v s' es hi its HH HU W E Hh He) as (bs & L & Sh & _ & _ & _).
  destruct Sh as (_ & hal & _ & g & r0 & r1 & r2 & r3 & _ & _ & _ & _ & _ & _ & ->). rewrite (used_no_setup H tr h s HH HU F) in L.
  assert (G : exists l, likes [CW false [140; 0; 0; 0; 255; 0; 0]] l /\ forall i, In i l -> In i its).
  { clear - L. cbn [pkt app] in L. inversion L as [|b0 l0 bs0 i0 H0 L0]; subst. inversion L0 as [|b1 l1 bs1 i1 H1 L1]; subst. inversion L1 as [|b2 l2 bs2 i2 H2 L2]; subst.
    exists l2. split; [apply likes_one; exact H2|]. intros i Hi. rewrite !in_app_iff. auto. }
  destruct G as (l & Ll & Hin). inversion Ll as [|b0 l0 bs0 i0 H0 L0]; subst. inversion L0; subst. destruct H0 as (l' & x & _ & Hx & _ & ->). exists x. split; [apply Hin; rewrite app_nil_r; apply in_or_app; right; left; reflexivity|]. rewrite Hx. split; reflexivity.
Qed.
Print Assumptions C101_sx126x_refuted.
Example C101_sx126x_rand_case : case126 [PInit hal_full cfg; PHandler true] PRand (fun c0 tr v hi its => negb (all_said (hp tr) its)).
Proof. show126 (@nil (Z * list Z)). Qed.
Example C101_sx126x_init_case : match call126 (sim126 []) (PInit hal_full cfg) [] d126_0 with
  | Ok (RvBool true, _, es) => match transcript es with Some its => all_said (is_hp cfg) its && (8 <=? length (filter (fun i => match i with Tr _ => true | Do _ => false end) its))%nat | None => false end
  | _ => false end = true.
Proof. vm_compute. reflexivity. Qed.
