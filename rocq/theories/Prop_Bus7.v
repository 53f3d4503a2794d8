(** Prop_Bus7.v -- C100 for the SX127x driver *)
From Verif Require Import LAir7 DemoRadio SpecIrq.
Local Definition good := [(66, [18]); (59, [0])].
Local Definition usual := [PInit hal_full cfg; PHandler true; PFreq 868100000; PPower 14; PPublic true; PSetup (par 1 0 false)].

Lemma store_more c a v : exists l, c_acts (store127 c a v) = c_acts c ++ l.
Proof.
  unfold store127. destruct (a =? 0); [destruct (c_reg c 1 mod 8 =? 0); exists []; rewrite app_nil_r; reflexivity|]. destruct (a =? 1); [eexists; reflexivity|]. exists []. rewrite app_nil_r. reflexivity.
Qed.
Lemma burst_more vs : forall c a, exists l, c_acts (burst127 c a vs) = c_acts c ++ l.
Proof.
  induction vs as [|v vs IH]; intros c a; [exists []; symmetry; apply app_nil_r|]. cbn [burst127]. destruct (IH (store127 c a v) (if a =? 0 then 0 else (a + 1) mod 128)) as (l & ->). destruct (store_more c a v) as (l' & ->).
  exists (l' ++ l). symmetry. apply app_assoc.
Qed.
Lemma chip_more its : forall c, exists l, c_acts (chip127 c its) = c_acts c ++ l.
Proof.
  unfold chip127. induction its as [|i its IH]; intro c; [exists []; symmetry; apply app_nil_r|]. cbn [fold_left]. destruct (IH (item127 c i)) as (l & ->).
  assert (Q : exists l', c_acts (item127 c i) = c_acts c ++ l').
  { destruct i as [x|e]; cbn [item127]; [destruct (mosi x) as [|a vs]; [exists []; rewrite app_nil_r; reflexivity|]; destruct (128 <=? a); [apply burst_more|exists []; rewrite app_nil_r; reflexivity]|].
    destruct e as [[|]| | | | | | | |]; exists []; rewrite app_nil_r; reflexivity. }
  destruct Q as (l' & ->). exists (l' ++ l). symmetry. apply app_assoc.
Qed.
(** if nothing was started by the end, nothing was started on the way *)
Lemma on_the_way c a b : c_acts (chip127 c (a ++ b)) = c_acts c -> c_acts (chip127 c a) = c_acts c.
Proof.
  rewrite chip127_app. destruct (chip_more a c) as (l & La). destruct (chip_more b (chip127 c a)) as (l' & ->). rewrite La, <- app_assoc. intro Q.
  rewrite <- (app_nil_r (c_acts c)) in Q at 2. apply app_inv_head in Q. apply app_eq_nil in Q as [-> _]. apply app_nil_r.
Qed.
Lemma before_last {A} (a : list A) t b x i : a ++ t :: b = x ++ [i] -> exists y, x = a ++ y.
Proof.
  destruct b as [|u b] using rev_ind; intro Q.
  - apply app_inj_tail in Q as [-> _]. exists []. symmetry. apply app_nil_r.
  - change (a ++ t :: b ++ [u]) with (a ++ (t :: b) ++ [u]) in Q. rewrite app_assoc in Q. apply app_inj_tail in Q as [<- _]. eauto.
Qed.
Lemma still_acts H c0 c s o v s' bs : shape H c0 c s o v s' bs -> (forall buf, o <> PTx buf) -> (forall n k t, o <> PRx n k t) -> o <> PRand -> c_acts (bchips c bs) = c_acts c.
Proof.
  intros Sh N1 N2 N3. destruct o as [hal d| |f|q|b|q|buf|n symb t|cap| | |b].
  - destruct Sh as (_ & ver & _ & [(_ & -> & ->)|(_ & x & w & rs & ok & _ & _ & -> & _ & _ & _ & _ & _ & ->)]).
    + rewrite bchips_app. assert (E : bchips c (init_head hal) = Mk_c127 reset127 (c_fifo c) (c_acts c)) by (unfold init_head, opt; destruct (has_io_deinit hal); reflexivity). rewrite E. reflexivity.
    + rewrite !bchips_app. assert (E : bchips c (init_head hal) = Mk_c127 reset127 (c_fifo c) (c_acts c)) by (unfold init_head, opt; destruct (has_io_deinit hal); reflexivity). rewrite E, polls_chip.
      destruct ok; cbn; rewrite ?app_nil_r; reflexivity.
  - destruct Sh as (-> & -> & hal & Ho & m & Hm & ->). pose proof (mode_chip H c0 c 0 m Hm ltac:(lia)) as (_ & _ & _ & _ & M5). cbv zeta in *.
    rewrite bchips_app. assert (E : bchips (bchips c m) (opt (has_io_deinit hal) HIoDeinit) = bchips c m) by (unfold opt; destruct (has_io_deinit hal); reflexivity). rewrite E, M5. apply app_nil_r.
  - destruct Sh as (-> & -> & ->). unfold bchips. cbn [fold_left bchip]. rewrite burst_acts; [reflexivity|lia|lia|right; cbn; lia].
  - cbn [shape] in Sh. destruct ((q <? -4) || (17 <? q)); destruct Sh as (-> & -> & ->); reflexivity.
  - destruct Sh as (-> & -> & ->). reflexivity.
  - destruct Sh as (-> & -> & hal & Ho & m & Hm & ->). pose proof (mode_chip H c0 c 1 m Hm ltac:(lia)) as (_ & _ & _ & _ & M5). cbv zeta in *.
    rewrite bchips_app. set (c1 := bchips c m) in *. clearbody c1. transitivity (c_acts c1); [unfold opt; destruct (has_io_init hal); reflexivity|]. rewrite M5. apply app_nil_r.
  - destruct (N1 buf eq_refl).
  - destruct (N2 n symb t eq_refl).
  - destruct Sh as (-> & ptr & n & data & snr & rssi & _ & _ & _ & _ & _ & _ & -> & ->). destruct (0 <? Z.min cap n); reflexivity.
  - destruct (N3 eq_refl).
  - destruct Sh as (-> & f & _ & -> & ->). unfold opt. destruct (a_handler s); reflexivity.
  - destruct Sh as (-> & -> & ->). reflexivity.
Qed.
(** reads, delays and writes to the mode register do not change the pins *)
Definition keeps_pins (b : bop) : bool := match b with BW 1 [_] | BR _ _ | BD (HDelay _) => true | _ => false end.
Lemma keep_pins bs : forallb keeps_pins bs = true -> forall c, pins127 (c_reg (bchips c bs)) = pins127 (c_reg c).
Proof.
  induction bs as [|b bs IH]; intros Hb c; [reflexivity|]. cbn [forallb] in Hb. apply andb_prop in Hb as [Hb Hs]. unfold bchips in *. cbn [fold_left]. rewrite (IH Hs).
  destruct b as [a vs|a vs|e]; [|reflexivity|destruct e; try discriminate Hb; reflexivity].
  destruct a as [|[| |]|]; try discriminate Hb. destruct vs as [|v [|]]; try discriminate Hb. reflexivity.
Qed.
Lemma keep_split a b bs : bs = a ++ b -> forallb keeps_pins bs = true -> forallb keeps_pins a = true.
Proof. intros -> Q. rewrite forallb_app in Q. apply andb_prop in Q. apply Q. Qed.
Lemma keep_polls a rs : forallb keeps_pins (polls a rs) = true.
Proof. induction rs as [|r rs IH]; [reflexivity|]. exact IH. Qed.

(** ** C100: when the chip has been started in a call and there is still more to transfer, the
    call is rand() and no pin signals anything. *)
Theorem C100_sx127x H c0 tr h s o v s' es hi its : henv_ok H -> does127 H tr h s o v s' es hi its -> forall a x b, its = a ++ Tr x :: b ->
  c_acts (chip127 c0 (hi ++ a)) = c_acts (chip127 c0 hi) \/ o = PRand /\ pins127 (c_reg (chip127 c0 (hi ++ a))) = pins_none.
Proof.
  intros HH (HU & W & E & Hh & He) a x b Q. destruct (used_step H c0 tr h s o v s' es hi its HH HU W E Hh He) as (bs & L & Sh & _ & Ec).
  rewrite chip127_app. set (c := chip127 c0 hi) in *.
  assert (G : forall y m1 m2 z, bs = y ++ [m1; m2] ++ z -> keeps_pins m1 = true -> c_acts (bchips c (y ++ [m1])) = c_acts c -> z = [] -> c_acts (chip127 c a) = c_acts c).
  { intros y m1 m2 z -> _ Hy ->. change (y ++ [m1; m2] ++ []) with (y ++ [m1] ++ [m2]) in L. rewrite app_assoc in L. apply Forall2_app_inv_l in L as (ix & i & Lx & Li & ->). inversion Li as [|? i0 ? ? _ Li0]; subst. inversion Li0; subst.
    destruct (before_last a (Tr x) b ix i0 (eq_sym Q)) as (r & ->). apply (on_the_way c a r). rewrite (like_chip _ _ Lx). exact Hy. }
  destruct o as [hal' d| |f|q|b'|q|buf|n symb t|cap| | |b'].
  7:{ left. destruct Sh as (_ & _ & hal & _ & m & (v1 & w1 & _ & _ & _ & _ & ->) & ->). eapply (G _ _ _ []); [rewrite app_nil_r; reflexivity|reflexivity| |reflexivity].
      rewrite bchips_app. change (bchips ?c [BR 1 [v1]]) with c. unfold opt.
      assert (X : forall b : bool, c_acts (bchips c ([BW 14 [0]; BW 13 [0]; BW 0 buf; BW 34 [len buf]; BW 17 [247]; BW 64 [64]] ++ (if b then [BD (HAnt false)] else []))) = c_acts (burst127 (bchips c [BW 14 [0]; BW 13 [0]]) 0 buf)) by (intros [|]; reflexivity).
      rewrite X. rewrite burst_acts by lia. reflexivity. }
  7:{ left. destruct Sh as (_ & _ & hal & _ & x0 & _ & _ & m & (v1 & w1 & _ & _ & _ & _ & ->) & ->). eapply (G _ _ _ []); [rewrite app_nil_r; reflexivity|reflexivity| |reflexivity].
      rewrite bchips_app. change (bchips ?c [BR 1 [v1]]) with c. unfold opt. destruct (has_ant hal); reflexivity. }
  8:{ destruct Sh as (_ & m1 & rs & m2 & (v1 & w1 & _ & _ & _ & _ & ->) & (v2 & w2 & _ & _ & _ & _ & ->) & _ & _ & _ & ->).
      change ([BW 17 [255]] ++ [BR 1 [v1]; BW 1 [w1]] ++ polls 44 rs ++ [BR 1 [v2]; BW 1 [w2]]) with ([BW 17 [255]] ++ ([BR 1 [v1]; BW 1 [w1]] ++ polls 44 rs ++ [BR 1 [v2]; BW 1 [w2]])) in L.
      assert (Kp : forallb keeps_pins ([BR 1 [v1]; BW 1 [w1]] ++ polls 44 rs ++ [BR 1 [v2]; BW 1 [w2]]) = true) by (rewrite !forallb_app, keep_polls; reflexivity).
      set (m := [BR 1 [v1]; BW 1 [w1]] ++ polls 44 rs ++ [BR 1 [v2]; BW 1 [w2]]) in *. clearbody m. clear Ec G.
      rewrite Q in L. apply Forall2_app_inv_r in L as (ba & bb & La & _ & Eb). destruct ba as [|b0 ba].
      - left. inversion La; subst. reflexivity.
      - right. split; [reflexivity|]. cbn in Eb. injection Eb as <- Eb. rewrite (like_chip _ _ La). change (bchips c (BW 17 [255] :: ba)) with (bchips (bchips c [BW 17 [255]]) ba).
        rewrite (keep_pins ba (keep_split _ _ _ Eb Kp)). reflexivity. }
  all: left; apply (on_the_way c a (Tr x :: b)); rewrite <- Q, (like_chip _ _ L); eapply still_acts; [exact Sh|discriminate..].
Qed.
Print Assumptions C100_sx127x.
(** receiving is started by the last transfer of rx(); rand() reads on, with no pin set *)
Definition cut127 (c0 : c127) (hi its : list item) (n : nat) : bool :=
  match nth_error its n with Some (Tr _) => true | _ => false end && negb (length (c_acts (chip127 c0 (hi ++ firstn n its))) =? length (c_acts (chip127 c0 hi)))%nat.
Example C100_sx127x_case : case127 (usual ++ [PTx [1; 2; 3]; PIrq; PSleep; PSetup (par 1 0 true)]) (PRx 255 8 0) (fun c0 tr v hi its =>
  negb (existsb (cut127 c0 hi its) (seq 0 (length its))) && negb (length (c_acts (chip127 c0 (hi ++ its))) =? length (c_acts (chip127 c0 hi)))%nat).
Proof. show127 good. Qed.
Example C100_sx127x_rand_case : case127 (usual ++ [PRx 255 8 0; PIrq]) PRand (fun c0 tr v hi its => (length (filter (cut127 c0 hi its) (seq 0 (length its))) =? 34)%nat).
Proof. show127 good. Qed.

(** init as the first call of a program *)
Theorem C100_sx127x_init H c0 hal d v s' es its : henv_ok H -> rop_wf (PInit hal d) -> call127 H (PInit hal d) [] d127_0 = Ok (v, s', es) -> transcript es = Some its -> forall a x b, its = a ++ Tr x :: b ->
  c_acts (chip127 c0 a) = c_acts c0.
Proof.
  intros HH W E He a x b Q.
  change (@nil hev) with (unparse []) in E. destruct (call_inv H c0 [] d127_0 _ v s' es HH (Forall_nil _) W (or_introl eq_refl) E) as (its' & bs & -> & F & L & Sh).
  rewrite (transcript_unparse _ F) in He. injection He as ->.
  apply (on_the_way c0 a (Tr x :: b)). rewrite <- Q, (like_chip _ _ L). eapply still_acts; [exact Sh|discriminate..].
Qed.
Print Assumptions C100_sx127x_init.
Example C100_sx127x_init_case : match call127 (sim127 good on127) (PInit hal_full cfg) [] d127_0 with Ok (RvBool true, _, es) => match transcript es with Some its => (8 <=? length (filter (fun i => match i with Tr _ => true | Do _ => false end) its))%nat | None => false end | _ => false end = true.
Proof. vm_compute. reflexivity. Qed.
