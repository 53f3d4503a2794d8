(** Prop_Lang7.v -- C101 for the SX127x driver *)
From Verif Require Import LAir7 DemoRadio SpecLang.
Local Definition good := [(66, [18]); (59, [0])].
Local Definition usual := [PInit hal_full cfg; PHandler true; PFreq 868100000; PPower 14; PPublic true; PSetup (par 1 0 false)].
Definition bspeak (b : bop) : bool :=
  match b with
  | BW a vs => speaks127 (128 + a :: vs)
  | BR a vs => (a =? 0) || (len vs =? 1) && (known rw127 a || known ro127 a)
  | BD _ => true
  end.
Lemma like_said b i : like b i -> bspeak b = true -> match i with Tr x => speaks127 (mosi x) = true | Do _ => True end.
Proof.
  destruct b as [a vs|a vs|e], i as [x|e']; cbn [like bspeak]; try tauto; intros Hl Hb.
  - destruct Hl as [Hx _]. rewrite Hx. exact Hb.
  - destruct x as [|[a' z] y]; [tauto|]. destruct Hl as (-> & Hy & Ha). cbn [mosi map fst speaks127]. replace (a =? 128) with false by lia. replace (128 <=? a) with false by lia. destruct (a =? 0); [reflexivity|].
    assert (L : len (map fst y) = len vs) by (unfold len, miso in *; rewrite <- Hy, !map_length; reflexivity). rewrite L. exact Hb.
Qed.
Lemma likes_said bs its : Forall2 like bs its -> forallb bspeak bs = true -> forall x, In (Tr x) its -> speaks127 (mosi x) = true.
Proof.
  induction 1 as [|b i bs its Hb _ IH]; intros Hs x Hx; [destruct Hx|]. cbn [forallb] in Hs. apply andb_prop in Hs as [H1 H2]. destruct Hx as [->|Hx]; [exact (like_said b (Tr x) Hb H1)|exact (IH H2 x Hx)].
Qed.
Lemma is_byteb b : is_byte b -> byteb b = true. Proof. unfold is_byte, byteb. lia. Qed.
Lemma bytes_b l : bytes_ok l -> forallb byteb l = true.
Proof. intro B. apply forallb_forall. intros b Hb. apply is_byteb. unfold bytes_ok in B. rewrite Forall_forall in B. exact (B b Hb). Qed.
Lemma polls_speak a rs : known rw127 a || known ro127 a = true -> forallb bspeak (polls a rs) = true.
Proof. intro K. induction rs as [|r rs IH]; [reflexivity|]. unfold polls in *. cbn [flat_map app forallb]. cbn [bspeak]. rewrite IH. change (len [r]) with 1. rewrite K. destruct (a =? 0); reflexivity. Qed.
Lemma byte_all (P : Z -> bool) x : forallb P (map Z.of_nat (seq 0 256)) = true -> is_byte x -> P x = true.
Proof. intros F B. rewrite forallb_forall in F. apply F, in_map_iff. exists (Z.to_nat x). unfold is_byte in B. split; [lia|]. apply in_seq. lia. Qed.
Lemma low_byte a : byteb (Z.land a 255) = true.
Proof. change 255 with (Z.ones 8). rewrite Z.land_ones by lia. unfold byteb. pose proof (Z.mod_pos_bound a (2 ^ 8) ltac:(lia)). lia. Qed.
Lemma conf2_back x k : is_byte x -> within 6 12 (x / 16) = true -> value127 30 (Z.lor (Z.land x (Z.lnot 3)) (Z.land k 3)) = true.
Proof.
  intros B S. assert (E : Z.land k 3 = 0 \/ Z.land k 3 = 1 \/ Z.land k 3 = 2 \/ Z.land k 3 = 3).
  { assert (M : Z.land k 3 = k mod 4) by exact (Z.land_ones k 2 ltac:(lia)). rewrite M. pose proof (Z.mod_pos_bound k 4 ltac:(lia)). lia. }
  pose (P := fun r x => implb (within 6 12 (x / 16)) (value127 30 (Z.lor (Z.land x (Z.lnot 3)) r))).
  assert (G : forall r, In r [0; 1; 2; 3] -> P r x = true).
  { intros r Hr. cbn in Hr. apply (byte_all (P r)); [|exact B]. destruct Hr as [<-|[<-|[<-|[<-|[]]]]]; vm_compute; reflexivity. }
  specialize (G (Z.land k 3)). unfold P in G. rewrite S in G. apply G. cbn. destruct E as [->|[->|[->| ->]]]; auto.
Qed.
Lemma pa_byte p : -4 <= p <= 17 -> byteb (pa_of p) = true.
Proof.
  intro B. assert (F : forallb (fun n => byteb (pa_of (Z.of_nat n - 4))) (seq 0 22) = true) by (vm_compute; reflexivity). rewrite forallb_forall in F. specialize (F (Z.to_nat (p + 4)) ltac:(apply in_seq; lia)).
  replace (Z.of_nat (Z.to_nat (p + 4)) - 4) with p in F by lia. exact F.
Qed.
Lemma nth_all f l n : forallb f l = true -> (n < length l)%nat -> f (nth n l 0) = true.
Proof. intros F L. rewrite forallb_forall in F. apply F, nth_In, L. Qed.
Lemma conf1_ok p : params_wf p -> value127 29 (conf1 p) = true.
Proof.
  intros (_ & W2 & W3 & _). unfold conf1.
  assert (G : forall b c, In b (firstn 3 bw_table) -> In c (firstn 4 cr_table) -> value127 29 (Z.lor b c) = true /\ value127 29 (Z.lor (Z.lor b c) 1) = true).
  { intros b c Hb Hc. cbn in Hb, Hc. repeat (destruct Hb as [<-|Hb]; [repeat (destruct Hc as [<-|Hc]; [split; reflexivity|]); destruct Hc|]). destruct Hb. }
  destruct (G (nth (Z.to_nat (p_bw p)) bw_table 0) (nth (Z.to_nat (p_cr p)) cr_table 0)) as [G1 G2].
  - change (firstn 3 bw_table) with bw_table. apply nth_In. cbn. lia.
  - change (firstn 4 cr_table) with cr_table. apply nth_In. cbn. lia.
  - cbv zeta. destruct (p_implicit_header p); assumption.
Qed.
Lemma conf2_ok p : params_wf p -> value127 30 (conf2 p) = true.
Proof.
  intros (W1 & _). unfold conf2. cbv zeta. destruct (p_crc_on p); [apply (nth_all (fun c => value127 30 (Z.lor c 4)))|apply (nth_all (value127 30))]; try reflexivity; cbn; lia.
Qed.
Lemma flags_byte f : byteb (fst (irq_flags f)) = true.
Proof. unfold irq_flags. cbn [fst]. destruct (Z.land f 8 =? 0), (Z.land f 64 =? 0), (Z.land f 128 =? 0), (Z.land f 32 =? 0); reflexivity. Qed.
Lemma frf_speak f : bspeak (BW 6 (frf_bytes f)) = true.
Proof. unfold frf_bytes. cbn [bspeak]. change (128 + 6) with 134. unfold speaks127. change (134 =? 128) with false. change (128 <=? 134) with true. cbv iota. change (134 - 128) with 6. cbn [burst_ok]. unfold value127. change (known rw127 6) with true. change (known rw127 (6 + 1)) with true. change (known rw127 (6 + 1 + 1)) with true. cbn [Z.add Z.eqb]. rewrite !low_byte. reflexivity. Qed.
(** one register, any byte *)
Lemma reg_speak a v : existsb (Z.eqb a) [1; 9; 13; 14; 17; 18; 31; 34; 35; 54; 57; 58; 59; 64] = true -> byteb v = true -> bspeak (BW a [v]) = true.
Proof.
  intros Ha Hv. apply existsb_exists in Ha as (a' & Ha & E). apply Z.eqb_eq in E. subst a'. cbn in Ha.
  assert (G : forall b, (if byteb v then true else false) = true -> bspeak (BW b [v]) = ((1 <=? len [v]) && (known rw127 b && value127 b v && true)) -> known rw127 b = true -> value127 b v = byteb v && true -> bspeak (BW b [v]) = true) by (intros b _ -> -> ->; rewrite Hv; reflexivity).
  repeat (destruct Ha as [<-|Ha]; [apply G; [rewrite Hv; reflexivity|reflexivity..]|]). destruct Ha.
Qed.
Lemma mode_speak H c0 c mode m : mode_to H c0 c mode m -> forallb bspeak m = true.
Proof. intros (v & w & _ & Bw & _ & _ & ->). cbn [forallb]. rewrite (reg_speak 1 w) by (try reflexivity; apply is_byteb, Bw). reflexivity. Qed.
Lemma shape_speak H c0 c s o v s' bs : shape H c0 c s o v s' bs -> rop_wf o -> (match o with PRx _ _ _ => forall x, In (BR 30 [x]) bs -> within 6 12 (x / 16) = true | _ => True end) -> forallb bspeak bs = true.
Proof.
  intros Sh W SF. destruct o as [hal d| |f|q|b|q|buf|n symb t|cap| | |b].
  - assert (Hd : forallb bspeak (init_head hal) = true) by (unfold init_head, opt; destruct (has_io_deinit hal); reflexivity).
    destruct Sh as (_ & ver & _ & [(_ & _ & ->)|(_ & x & w & rs & ok & _ & [Bw _] & _ & _ & _ & _ & _ & _ & ->)]).
    + rewrite forallb_app, Hd. reflexivity.
    + rewrite !forallb_app, Hd, polls_speak by reflexivity. assert (T : forallb bspeak (if ok then init_tail else []) = true) by (destruct ok; reflexivity). rewrite T. cbn [forallb]. rewrite frf_speak, (reg_speak 59 w) by (try reflexivity; apply is_byteb, Bw). reflexivity.
  - destruct Sh as (_ & _ & hal & _ & m & Hm & ->). rewrite forallb_app, (mode_speak _ _ _ _ _ Hm). unfold opt. destruct (has_io_deinit hal); reflexivity.
  - destruct Sh as (_ & _ & ->). cbn [forallb]. rewrite frf_speak. reflexivity.
  - cbn [shape] in Sh. destruct ((q <? -4) || (17 <? q)) eqn:R; destruct Sh as (_ & _ & ->); [reflexivity|]. cbn [forallb]. rewrite (reg_speak 9 (pa_of q)); [reflexivity|reflexivity|apply pa_byte; lia].
  - destruct Sh as (_ & _ & ->). destruct b; reflexivity.
  - destruct Sh as (_ & _ & hal & _ & m & Hm & ->). rewrite !forallb_app, (mode_speak _ _ _ _ _ Hm). cbn [andb]. cbn [rop_wf] in W.
    assert (C1 : bspeak (BW 29 [conf1 q]) = true) by (cbn; rewrite (conf1_ok q W); reflexivity). assert (C3 : bspeak (BW 38 [conf3 q]) = true) by (unfold conf3; destruct (SF_11 <=? p_sf q); reflexivity).
    assert (C2 : bspeak (BW 30 [conf2 q]) = true) by (cbn -[value127]; rewrite (conf2_ok q W); reflexivity).
    cbn [forallb]. rewrite C1, C2, C3. unfold opt. destruct (p_inverted_iq q), (has_io_init hal); reflexivity.
  - destruct Sh as (_ & _ & hal & _ & m & Hm & ->). cbn [rop_wf] in W. destruct W as [Wb Wl]. rewrite !forallb_app, (mode_speak _ _ _ _ _ Hm). cbn [forallb].
    assert (F : bspeak (BW 0 buf) = true) by (cbn [bspeak]; unfold speaks127; change (128 + 0 =? 128) with true; cbv iota; rewrite (bytes_b buf Wb); lia).
    rewrite F, (reg_speak 34 (len buf)); [|reflexivity|unfold byteb, len in *; lia]. unfold opt. destruct (has_ant hal); reflexivity.
  - destruct Sh as (_ & _ & hal & _ & x & Bx & _ & m & Hm & ->). cbn [rop_wf] in W. destruct W as (Wn & _). rewrite !forallb_app, (mode_speak _ _ _ _ _ Hm). cbn [forallb].
    assert (C2 : bspeak (BW 30 [Z.lor (Z.land x (Z.lnot 3)) (Z.land (Z.shiftr symb 8) 3)]) = true).
    { cbn -[value127 Z.lor Z.land Z.lnot Z.shiftr]. rewrite conf2_back; [reflexivity|exact Bx|apply SF; cbn; auto]. }
    rewrite C2, (reg_speak 31 (Z.land symb 255)), (reg_speak 35 n) by (try reflexivity; first [apply low_byte | apply is_byteb, Wn]).
    unfold opt. destruct (has_ant hal); reflexivity.
  - destruct Sh as (_ & ptr & n & data & snr & rssi & Bp & _ & _ & _ & _ & _ & _ & ->). rewrite !forallb_app. cbn [forallb]. rewrite (reg_speak 13 ptr) by (try reflexivity; apply is_byteb, Bp). destruct (0 <? Z.min cap n); reflexivity.
  - destruct Sh as (_ & m1 & rs & m2 & H1 & H2 & _ & _ & _ & ->). rewrite !forallb_app, (mode_speak _ _ _ _ _ H1), (mode_speak _ _ _ _ _ H2), polls_speak by reflexivity. reflexivity.
  - destruct Sh as (_ & f & _ & _ & ->). rewrite !forallb_app. cbn [forallb]. rewrite (reg_speak 18 (fst (irq_flags f))) by (try reflexivity; apply flags_byte). unfold opt. destruct (a_handler s); reflexivity.
  - destruct Sh as (_ & _ & ->). reflexivity.
Qed.

Lemma likes_sf bs its : Forall2 like bs its -> (forall x, In (Tr x) its -> sf_answer x) -> forall v, In (BR 30 [v]) bs -> within 6 12 (v / 16) = true.
Proof.
  induction 1 as [|b i bs its Hb _ IH]; intros Hs v Hv; [destruct Hv|]. destruct Hv as [->|Hv]; [|apply IH; [intros x Hx; apply Hs; right; exact Hx|exact Hv]].
  destruct i as [x|e]; [|destruct Hb]. specialize (Hs x (or_introl eq_refl)). cbn [like] in Hb. destruct x as [|[a z] y]; [tauto|]. destruct Hb as (-> & Hy & _).
  destruct y as [|[m w] [|? ?]]; cbn in Hy; try discriminate. injection Hy as ->. exact Hs.
Qed.
(** ** C101: every transfer reads or writes registers the data sheet describes, with values it
    allows. Partial: rx() reads ModemConfig2 and writes its spreading factor back, so the claim
    needs the chip to have answered with one that exists ([C101_sx127x_echo_case] without). *)
Theorem C101_sx127x_partial H tr h s o v s' es hi its : henv_ok H -> does127 H tr h s o v s' es hi its -> (forall x, In (Tr x) its -> sf_answer x) ->
  forall x, In (Tr x) its -> speaks127 (mosi x) = true.
Proof.
  intros HH (HU & W & E & Hh & He) A. destruct (used_step H on127 tr h s o v s' es hi its HH HU W E Hh He) as (bs & L & Sh & _ & _).
  apply (likes_said bs its L). eapply shape_speak; [exact Sh|exact W|]. destruct o; try exact I. exact (likes_sf bs its L A).
Qed.
Print Assumptions C101_sx127x_partial.
(** with a chip that answers what its registers hold, a setup() before rx() is enough *)
Definition sf_set (w : want) (o : rop) : Prop := match o with PRx _ _ _ => exists p, w_par w = Some p | _ => True end.
Lemma conf2_sf p x : params_wf p -> x / 4 = conf2 p / 4 -> within 6 12 (x mod 256 / 16) = true.
Proof.
  intros W E. pose proof (conf2_ok p W) as V. unfold value127 in V. cbn [Z.eqb Pos.eqb] in V. apply andb_prop in V as [V1 V2]. unfold byteb in V1. unfold within in *.
  assert (B : 0 <= x < 256) by (pose proof (Z.div_mod x 4 ltac:(lia)); pose proof (Z.mod_pos_bound x 4 ltac:(lia)); pose proof (Z.div_mod (conf2 p) 4 ltac:(lia)); pose proof (Z.mod_pos_bound (conf2 p) 4 ltac:(lia)); lia).
  rewrite Z.mod_small by exact B. replace (x / 16) with (x / 4 / 4) by (rewrite Z.div_div by lia; reflexivity). rewrite E, Z.div_div by lia. exact V2.
Qed.
Theorem C101_sx127x_set_partial H c0 tr h s o v s' es hi its : henv_ok H -> answers127 c0 H -> does127 H tr h s o v s' es hi its -> sf_set (wants tr) o ->
  forall x, In (Tr x) its -> speaks127 (mosi x) = true.
Proof.
  intros HH HA (HU & W & E & Hh & He) P. destruct (used_step H c0 tr h s o v s' es hi its HH HU W E Hh He) as (bs & L & Sh & (_ & _ & _ & _ & _ & K6 & _) & _).
  apply (likes_said bs its L). eapply shape_speak; [exact Sh|exact W|]. destruct o as [hal d| |f|q|b|q|buf|n symb t|cap| | |b]; try exact I.
  destruct P as (p & Hp). destruct (K6 p Hp) as (Wp & _ & R30 & _). intros y Hy.
  destruct Sh as (_ & _ & hal & _ & x & _ & Hx & m & (v1 & w1 & _ & _ & _ & _ & ->) & ->).
  assert (Y : y = x). { rewrite !in_app_iff in Hy. unfold opt in Hy. destruct (has_ant hal); cbn in Hy; intuition congruence. }
  subst y. rewrite (Hx HA). exact (conf2_sf p _ Wp (R30 HA)).
Qed.
Print Assumptions C101_sx127x_set_partial.
(** the same for the first call of a program, which is init() *)
Theorem C101_sx127x_init H hal d v s' es its : henv_ok H -> rop_wf (PInit hal d) -> call127 H (PInit hal d) [] d127_0 = Ok (v, s', es) -> transcript es = Some its ->
  forall x, In (Tr x) its -> speaks127 (mosi x) = true.
Proof.
  intros HH W E He. change (@nil hev) with (unparse []) in E. destruct (call_inv H on127 [] d127_0 _ v s' es HH (Forall_nil _) W (or_introl eq_refl) E) as (its' & bs & -> & F & L & Sh).
  rewrite (transcript_unparse _ F) in He. injection He as ->. apply (likes_said bs its L). eapply shape_speak; [exact Sh|exact W|exact I].
Qed.
Print Assumptions C101_sx127x_init.
Definition all_said (its : list item) : bool := forallb (fun i => match i with Tr x => speaks127 (mosi x) | Do _ => true end) its.
Example C101_sx127x_case : case127 (usual ++ [PSleep; PSetup (par 2 0 true)]) (PTx [7; 8; 9; 250]) (fun c0 tr v hi its =>
  all_said its && (length (filter (fun i => match i with Tr _ => true | Do _ => false end) its) =? 8)%nat).
Proof. show127 good. Qed.
(** rx() with a chip that names SF 7, and with one that names SF 15 *)
Definition says_sf (n : Z) (its : list item) : bool := existsb (fun i => match i with Tr [(30, _); (_, v)] => v / 16 =? n | _ => false end) its.
Example C101_sx127x_rx_case : case127 usual (PRx 64 8 0) (fun c0 tr v hi its => all_said its && says_sf 7 its).
Proof. show127 good. Qed.
Example C101_sx127x_echo_case : exists H tr h s v s' es hi its, henv_ok H /\ does127 H tr h s (PRx 64 8 0) v s' es hi its /\ negb (all_said its) && says_sf 15 its = true.
Proof.
  destruct (case127_ok (sim127 (good ++ [(30, [240])]) on127) usual (PRx 64 8 0) (fun tr v hi its => negb (all_said its) && says_sf 15 its)) as (tr & h & s & v & s' & es & hi & its & D & HP); [vm_compute; reflexivity..|].
  exists (sim127 (good ++ [(30, [240])]) on127), tr, h, s, v, s', es, hi, its. split; [apply sim127_ok|]. auto.
Qed.
Example C101_sx127x_init_case : match call127 (sim127 good on127) (PInit hal_full cfg) [] d127_0 with
  | Ok (RvBool true, _, es) => match transcript es with Some its => all_said its && (8 <=? length (filter (fun i => match i with Tr _ => true | Do _ => false end) its))%nat | None => false end
  | _ => false end = true.
Proof. vm_compute. reflexivity. Qed.
