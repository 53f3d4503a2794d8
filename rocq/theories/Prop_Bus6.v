(** Prop_Bus6.v -- C100 for the SX126x driver *)
From Verif Require Import LWant6 DemoRadio SpecIrq Prop_Irq6.
Local Definition usual := [PInit hal_full cfg; PHandler true; PFreq 868100000; PPower 14; PPublic true; PSetup (par 1 0 false)].

Lemma cmd_more c bs : exists l, k_acts (cmd126 c bs) = k_acts c ++ l.
Proof.
  unfold cmd126. repeat (match goal with |- context [match ?x with _ => _ end] => destruct x end; try (exists []; rewrite app_nil_r; reflexivity); try (eexists; reflexivity)).
Qed.
Lemma chip_more its : forall c, exists l, k_acts (chip126 c its) = k_acts c ++ l.
Proof.
  unfold chip126. induction its as [|i its IH]; intro c; [exists []; symmetry; apply app_nil_r|]. cbn [fold_left]. destruct (IH (item126 c i)) as (l & ->).
  assert (Q : exists l', k_acts (item126 c i) = k_acts c ++ l').
  { destruct i as [x|e]; cbn [item126]; [apply cmd_more|]. destruct e as [[|]| | | | | | | |]; exists []; rewrite app_nil_r; reflexivity. }
  destruct Q as (l' & ->). exists (l' ++ l). symmetry. apply app_assoc.
Qed.
(** if nothing was started by the end, nothing was started on the way *)
Lemma on_the_way c a b : k_acts (chip126 c (a ++ b)) = k_acts c -> k_acts (chip126 c a) = k_acts c.
Proof.
  rewrite chip_app. destruct (chip_more a c) as (l & La). destruct (chip_more b (chip126 c a)) as (l' & ->). rewrite La, <- app_assoc. intro Q.
  rewrite <- (app_nil_r (k_acts c)) in Q at 2. apply app_inv_head in Q. apply app_eq_nil in Q as [-> _]. apply app_nil_r.
Qed.
Lemma before_last {A} (a : list A) t b x i : a ++ t :: b = x ++ [i] -> exists y, x = a ++ y.
Proof.
  destruct b as [|u b] using rev_ind; intro Q.
  - apply app_inj_tail in Q as [-> _]. exists []. symmetry. apply app_nil_r.
  - change (a ++ t :: b ++ [u]) with (a ++ (t :: b) ++ [u]) in Q. rewrite app_assoc in Q. apply app_inj_tail in Q as [<- _]. eauto.
Qed.
Lemma still_acts c s o v s' bs : shape s o v s' bs -> (forall buf, o <> PTx buf) -> (forall n k t, o <> PRx n k t) -> o <> PRand -> k_acts (bchips c bs) = k_acts c.
Proof.
  intros Sh N1 N2 N3. destruct o as [hal d| |f|p|b|p|buf|n symb t|cap| | |b].
  - destruct Sh as (e0 & e1 & _ & _ & _ & _ & ->). rewrite !bchips_app.
    assert (E1 : k_acts (bchips c (init_head hal d)) = k_acts c) by (unfold init_head, tcxo_ops, opt; destruct (has_io_deinit hal), (use_tcxo d); reflexivity). rewrite <- E1.
    set (c1 := bchips c (init_head hal d)). clearbody c1. destruct ((e0 =? 0) && (e1 =? 0)); [|reflexivity]. unfold init_tail, sleep_ops, opt. destruct (has_io_deinit hal); reflexivity.
  - destruct Sh as (-> & -> & hal & Ho & ->). rewrite sleep_chip. reflexivity.
  - destruct Sh as (-> & -> & ->). reflexivity.
  - destruct Sh as (d & _ & Sh). destruct (in_range (is_hp d) p); destruct Sh as (_ & _ & Sh); [|subst; reflexivity]. destruct (is_hp d); [destruct Sh as (g & _ & ->); reflexivity|]. subst bs. destruct (p =? 15); reflexivity.
  - destruct Sh as (-> & -> & ->). destruct b; reflexivity.
  - destruct Sh as (-> & -> & hal & Ho & ->). unfold opt. destruct (has_io_init hal); reflexivity.
  - destruct (N1 buf eq_refl).
  - destruct (N2 n symb t eq_refl).
  - destruct Sh as (-> & n & off & data & p0 & p1 & p2 & _ & _ & _ & _ & _ & _ & _ & -> & ->). reflexivity.
  - destruct (N3 eq_refl).
  - destruct Sh as (-> & x & y & _ & _ & -> & ->). unfold opt. destruct (b_handler s); reflexivity.
  - destruct Sh as (-> & -> & ->). reflexivity.
Qed.
Lemma likes_one z bs its : likes [CW z bs] its -> exists l x, its = l ++ [Tr x] /\ lead z l /\ mosi x = bs.
Proof.
  intro L. inversion L as [|? l ? r Hb Hr]; subst. inversion Hr; subst. destruct Hb as (l' & x & Hl & Hx & _ & ->). exists l', x. rewrite app_nil_r. auto.
Qed.

(** ** C100: a call other than rand() transfers nothing after it has started the chip.
    Missing: rand(), for which this fails each time (below). *)
Theorem C100_sx126x_partial H c0 tr h s o v s' es hi its : henv_ok H -> does126 H tr h s o v s' es hi its -> o <> PRand -> forall a x b, its = a ++ Tr x :: b ->
  k_acts (chip126 c0 (hi ++ a)) = k_acts (chip126 c0 hi).
Proof.
  intros HH (HU & W & E & Hh & He) NR a x b Q. destruct (used_step H c0 tr h s o v s' es hi its HH HU W E Hh He) as (bs & L & Sh & _ & _ & _).
  rewrite chip_app. set (c := chip126 c0 hi) in *.
  assert (G : forall y w, bs = y ++ [CW false w] -> k_acts (bchips c y) = k_acts c -> k_acts (chip126 c a) = k_acts c).
  { intros y w -> Hy. apply likes_app_inv in L as (ix & il & -> & Lx & Ll). apply likes_one in Ll as (l & t & -> & -> & _). rewrite app_assoc in Q.
    destruct (before_last a (Tr x) b _ (Tr t) (eq_sym Q)) as (r & Er). apply (on_the_way c a r). rewrite <- Er, chip_app. change (chip126 ?c [Do HWaitBusy]) with c. rewrite (likes_chip _ _ Lx). exact Hy. }
  destruct o as [hal' d| |f|q|b'|q|buf|n symb t|cap| | |b'].
  7:{ destruct Sh as (_ & _ & hal & _ & g & _ & Eb). eapply G; [rewrite Eb, !app_assoc; reflexivity|]. unfold opt. destruct (has_ant hal); reflexivity. }
  7:{ destruct Sh as (_ & _ & hal & _ & g & _ & Eb). unfold rx_tail in Eb. eapply G; [rewrite Eb, !app_assoc; reflexivity|]. unfold opt. destruct (has_ant hal); reflexivity. }
  8:{ destruct (NR eq_refl). }
  all: apply (on_the_way c a (Tr x :: b)); rewrite <- Q, (likes_chip _ _ L); eapply still_acts; [exact Sh|discriminate..].
Qed.
Print Assumptions C100_sx126x_partial.
Definition cut126 (c0 : c126) (hi its : list item) (n : nat) : bool :=
  match nth_error its n with Some (Tr _) => true | _ => false end && negb (length (k_acts (chip126 c0 (hi ++ firstn n its))) =? length (k_acts (chip126 c0 hi)))%nat.
Example C100_sx126x_case : case126 (usual ++ [PTx [1; 2; 3]; PIrq; PSleep; PSetup (par 1 0 true)]) (PRx 255 8 0) (fun c0 tr v hi its =>
  negb (existsb (cut126 c0 hi its) (seq 0 (length its))) && negb (length (k_acts (chip126 c0 (hi ++ its))) =? length (k_acts (chip126 c0 hi)))%nat).
Proof. show126 (@nil (Z * list Z)). Qed.

(** Each call of rand() reads from the chip while it receives with all events on DIO1. *)
Theorem C100_sx126x_refuted H c0 tr h s v s' es hi its : henv_ok H -> does126 H tr h s PRand v s' es hi its -> w_up (wants tr) = true ->
  exists a x b m n, its = a ++ Tr x :: b /\ k_acts (chip126 c0 (hi ++ a)) = k_acts (chip126 c0 hi) ++ [Listen m Continuous 0 n] /\ dio126 (hi ++ a) = Some (all_events, all_events, 0, 0).
Proof.
  intros HH (HU & W & E & Hh & He) Up. destruct (used_step H c0 tr h s PRand v s' es hi its HH HU W E Hh He) as (bs & L & Sh & _ & _ & _).
  pose proof (C71_sx126x H tr h s hi HH HU Hh Up) as D.
  destruct Sh as (_ & hal & _ & g & r0 & r1 & r2 & r3 & _ & _ & _ & _ & _ & _ & ->). rewrite app_assoc in L. apply likes_app_inv in L as (ia & ir & -> & La & Lr).
  apply (likes_app_inv [CG false 2073 [r0; r1; r2; r3]]) in Lr as (ig & iz & -> & Lg & _). inversion Lg as [|? l ? r Hg Hr]; subst. inversion Hr; subst. destruct Hg as (l' & x & y & Hl & _ & _ & ->). cbn in Hl. subst l'.
  exists (ia ++ [Do HWaitBusy]), (x ++ y), iz. rewrite !chip_app. change (chip126 ?c [Do HWaitBusy]) with c. rewrite (likes_chip _ _ La), bchips_app, rx_chip. cbn [k_acts]. eexists. eexists. split; [rewrite <- !app_assoc; reflexivity|]. split; [rewrite (proj2 (pkt_kept _ _ _ _ _)); reflexivity|].
  unfold dio126. rewrite !fold_left_app. fold (dio126 hi). rewrite (likes_dio _ _ La), D. cbn [fold_left dio_see]. apply plain_dio. unfold rx_tail, opt. destruct (has_ant hal); reflexivity.
Qed.
Print Assumptions C100_sx126x_refuted.
Example C100_sx126x_rand_case : case126 (usual ++ [PRx 255 8 0; PIrq; PSleep]) PRand (fun c0 tr v hi its => w_up (wants tr) && (length (filter (cut126 c0 hi its) (seq 0 (length its))) =? 2)%nat).
Proof. show126 (@nil (Z * list Z)). Qed.

(** init as the first call of a program *)
Theorem C100_sx126x_init H c0 hal d v s' es its : henv_ok H -> rop_wf (PInit hal d) -> call126 H (PInit hal d) [] d126_0 = Ok (v, s', es) -> transcript es = Some its -> forall a x b, its = a ++ Tr x :: b ->
  k_acts (chip126 c0 a) = k_acts c0.
Proof.
  intros HH W E He a x b Q.
  change (@nil hev) with (unparse []) in E. destruct (call_inv H [] d126_0 _ v s' es HH W (or_introl eq_refl) E) as (its' & bs & -> & F & L & Sh).
  rewrite (transcript_unparse _ F) in He. injection He as ->.
  apply (on_the_way c0 a (Tr x :: b)). rewrite <- Q, (likes_chip _ _ L). eapply still_acts; [exact Sh|discriminate..].
Qed.
Print Assumptions C100_sx126x_init.
Example C100_sx126x_init_case : match call126 (sim126 []) (PInit hal_full cfg) [] d126_0 with Ok (RvBool true, _, es) => match transcript es with Some its => (8 <=? length (filter (fun i => match i with Tr _ => true | Do _ => false end) its))%nat | None => false end | _ => false end = true.
Proof. vm_compute. reflexivity. Qed.
