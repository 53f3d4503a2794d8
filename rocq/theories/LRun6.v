(** LRun6.v -- executions of src/device/sx126x.c: what the chip holds *)
From Verif Require Export LDrv6 SpecDrv.

Definition is_init (o : rop) : bool := match o with PInit _ _ => true | _ => false end.
Definition ready (s : d126) : Prop := (exists x, b_hal s = Some x) /\ exists d, b_opts s = Some d.
Lemma shape_ready s o v s' bs : shape s o v s' bs -> is_init o = true \/ ready s -> ready s'.
Proof.
  unfold ready. destruct o as [hal d| |f|p|b|p|buf|n symb t|cap| | |b]; cbn [shape is_init]; intros Sh Hx; [|destruct Hx as [Hx|Hx]; [discriminate|]..].
  - destruct Sh as (e0 & e1 & _ & _ & _ & -> & _). cbn; split; eexists; reflexivity.
  - destruct Sh as (_ & -> & _). exact Hx.
  - destruct Sh as (_ & -> & _). exact Hx.
  - destruct Sh as (d & Hd & Sh). destruct (in_range (is_hp d) p); destruct Sh as (_ & -> & _); exact Hx.
  - destruct Sh as (_ & -> & _). exact Hx.
  - destruct Sh as (_ & -> & _). exact Hx.
  - destruct Sh as (_ & -> & _). exact Hx.
  - destruct Sh as (_ & -> & _). exact Hx.
  - destruct Sh as (-> & _). exact Hx.
  - destruct Sh as (-> & _). exact Hx.
  - destruct Sh as (-> & _). exact Hx.
  - destruct Sh as (_ & -> & _). exact Hx.
Qed.
Lemma call_inv H hi s o v s' es : henv_ok H -> rop_wf o -> is_init o = true \/ ready s -> call126 H o (unparse hi) s = Ok (v, s', es) ->
  exists its bs, es = unparse its /\ Forall item_ok its /\ likes bs its /\ shape s o v s' bs.
Proof.
  intros HH W Hx E. assert (X : (exists hal d, o = PInit hal d) \/ (exists x, b_hal s = Some x) /\ exists d, b_opts s = Some d) by (destruct Hx as [Hx|Hx]; [left; destruct o; try discriminate; eauto|right; exact Hx]).
  pose proof (call126_shape H HH s o W X hi) as (v1 & s1 & its & E1 & F1 & bs & L1 & Sh).
  rewrite E in E1. injection E1 as -> -> ->. exists its, bs. auto.
Qed.
Lemma rexec_ind2 H (P : list rentry -> list hev -> d126 -> Prop) :
  (forall o v s' es, is_init o = true -> rop_wf o -> call126 H o [] d126_0 = Ok (v, s', es) -> P [(o, v, es)] es s') ->
  (forall tr h s o v s' es, used126 H tr h s -> P tr h s -> rop_wf o -> call126 H o h s = Ok (v, s', es) -> P (tr ++ [(o, v, es)]) (h ++ es) s') ->
  forall tr h s, used126 H tr h s -> P tr h s.
Proof.
  intros P0 P1 tr h s [HX W]. unfold rtrace_wf in W. revert W.
  remember [] as h0 eqn:Eh. remember d126_0 as s0 eqn:Es. induction HX as [h s|h s tr h1 s1 o v s2 es HX IH Hc]; intros [W1 W2].
  - destruct W2 as (? & ? & ? & ? & ? & W2). discriminate.
  - subst h s. specialize (IH eq_refl eq_refl). destruct tr as [|t tr].
    + clear IH. inversion HX as [? ? | ? ? tr' ? ? o' v' ? es' HX' Hc' E1]; subst.
      * destruct W2 as (hal & d & v' & es' & tr' & W2). cbn in W2. injection W2 as -> -> -> _. cbn [app]. apply P0; [reflexivity| |exact Hc]. exact (Forall_inv W1).
      * destruct tr'; discriminate.
    + apply Forall_app in W1 as [W1 W1']. destruct W2 as (hal & d & v' & es' & tr' & W2). cbn in W2. injection W2 as Ht _.
      assert (W : Forall (fun t => rop_wf (fst (fst t))) (t :: tr) /\ exists hal opts v es tr', t :: tr = (PInit hal opts, v, es) :: tr') by (split; [exact W1|subst t; eauto 6]).
      apply (P1 (t :: tr) h1 s1); [split; [exact HX|exact W]|exact (IH P0 W)|exact (Forall_inv W1')|exact Hc].
Qed.
(** An invariant [I] over the calls, the items and the driver state that holds after
    init, whatever was before, and is kept by every call. *)
Lemma used_ind H (I : list rentry -> list item -> d126 -> Prop) : henv_ok H ->
  (forall o v s' es its bs, is_init o = true -> rop_wf o -> likes bs its -> shape d126_0 o v s' bs -> I [(o, v, es)] its s') ->
  (forall tr hi s o v s' es its bs, I tr hi s -> ready s -> rop_wf o -> likes bs its -> shape s o v s' bs -> I (tr ++ [(o, v, es)]) (hi ++ its) s') ->
  forall tr h s, used126 H tr h s -> exists hi, h = unparse hi /\ Forall item_ok hi /\ ready s /\ I tr hi s.
Proof.
  intros HH I0 I1. apply (rexec_ind2 H (fun tr h s => exists hi, h = unparse hi /\ Forall item_ok hi /\ ready s /\ I tr hi s)).
  - intros o v s' es Hi W E. change (@nil hev) with (unparse []) in E. destruct (call_inv H [] d126_0 o v s' es HH W (or_introl Hi) E) as (its & bs & -> & F & L & Sh).
    exists its. split; [reflexivity|]. split; [exact F|]. split; [eapply shape_ready; [exact Sh|left; exact Hi]|]. eapply I0; eassumption.
  - intros tr h s o v s' es _ (hi & -> & F & R & HI) W E. destruct (call_inv H hi s o v s' es HH W (or_intror R) E) as (its & bs & -> & F' & L & Sh).
    exists (hi ++ its). split; [symmetry; apply unparse_app|]. split; [apply Forall_app; split; assumption|]. split; [eapply shape_ready; [exact Sh|right; exact R]|]. eapply I1; eassumption.
Qed.
Lemma used_pos H tr h s : henv_ok H -> used126 H tr h s -> exists hi, h = unparse hi /\ Forall item_ok hi /\ ready s.
Proof. intros HH HU. destruct (used_ind H (fun _ _ _ => True) HH) with (tr := tr) (h := h) (s := s) as (hi & A & B & C & _); eauto. Qed.
Lemma used_call H tr h s o v s' es : henv_ok H -> used126 H tr h s -> rop_wf o -> call126 H o h s = Ok (v, s', es) ->
  exists hi its bs, transcript h = Some hi /\ transcript es = Some its /\ likes bs its /\ shape s o v s' bs /\ ready s /\ h = unparse hi /\ es = unparse its.
Proof.
  intros HH HU W E. destruct (used_pos H tr h s HH HU) as (hi & -> & F & R). destruct (call_inv H hi s o v s' es HH W (or_intror R) E) as (its & bs & -> & F' & L & Sh).
  exists hi, its, bs. repeat split; auto; try apply transcript_unparse; auto; apply R.
Qed.
Lemma used_progress H tr h s o : henv_ok H -> used126 H tr h s -> rop_wf o -> exists v s' es, call126 H o h s = Ok (v, s', es).
Proof.
  intros HH HU W. destruct (used_pos H tr h s HH HU) as (hi & -> & F & R).
  destruct (call126_shape H HH s o W (or_intror R) hi) as (v & s' & its & E & _). eauto.
Qed.

(** ** wake-up *)
Lemma bpw1_on p z bs : pw_of z p -> (forall x, bs <> 132 :: x) -> bpw1 p z bs = Some (Awake false).
Proof.
  intros Hp N. assert (E : after_cmd bs = Some (Awake false)).
  { destruct bs as [|b bs]; [reflexivity|]. destruct b as [|b|b]; try reflexivity. do 8 (destruct b as [b|b|]; try reflexivity). exfalso. eapply N. reflexivity. }
  unfold bpw1. rewrite E. destruct z; cbn [pw_of] in Hp; [subst p; reflexivity|destruct Hp as [b ->]; reflexivity].
Qed.
Lemma sleep_pw z hal p : pw_of z p -> bpw p (sleep_ops z hal) = Some (Cold true).
Proof. intro Hp. unfold sleep_ops, opt. destruct z; cbn [pw_of] in Hp; [subst p|destruct Hp as [b ->]]; destruct (has_io_deinit hal); reflexivity. Qed.
Ltac awk Hp := cbn [app]; match goal with |- exists q, bpw ?p (?b :: _) = Some q /\ _ =>
  cbn [bpw bpw_see]; rewrite (bpw1_on _ _ _ Hp) by (intros ? ?; discriminate) end.
Lemma shape_pw s o v s' bs p : shape s o v s' bs -> is_init o = true \/ pw_of (b_sleep s) p -> exists q, bpw p bs = Some q /\ pw_of (b_sleep s') q.
Proof.
  destruct o as [hal d| |f|q|b|q|buf|n symb t|cap| | |b]; intros Sh Hp; try (destruct Hp as [Hp|Hp]; [discriminate|]).
  - destruct Sh as (e0 & e1 & _ & _ & _ & -> & ->). exists (Awake false). split; [|cbn; eauto]. clear Hp. unfold init_head, tcxo_ops, init_tail, sleep_ops, opt.
    destruct p as [[|]|[|]| |[|]], (has_io_deinit hal), (use_tcxo d), ((e0 =? 0) && (e1 =? 0)); reflexivity.
  - destruct Sh as (-> & -> & hal & Ho & ->). exists (Cold true). split; [apply sleep_pw, Hp|reflexivity].
  - destruct Sh as (-> & -> & ->). awk Hp. eexists. split; [reflexivity|cbn; eauto].
  - destruct Sh as (d & Hd & Sh). destruct (in_range (is_hp d) q).
    + destruct Sh as (-> & -> & Sh). destruct (is_hp d); [destruct Sh as (g & _ & ->)|subst bs].
      * awk Hp. eexists. split; [reflexivity|cbn; eauto].
      * awk Hp. destruct (q =? 15); (eexists; split; [reflexivity|cbn; eauto]).
    + destruct Sh as (-> & -> & ->). exists p. split; [reflexivity|exact Hp].
  - destruct Sh as (-> & -> & ->). awk Hp. eexists. split; [reflexivity|cbn; eauto].
  - destruct Sh as (-> & -> & hal & Ho & ->). awk Hp. unfold opt. destruct (has_io_init hal); (eexists; split; [reflexivity|cbn; eauto]).
  - destruct Sh as (-> & -> & hal & Ho & g & _ & ->). unfold pkt. awk Hp. unfold opt. destruct (has_ant hal); (eexists; split; [reflexivity|cbn; eauto]).
  - destruct Sh as (-> & -> & hal & Ho & g & _ & ->). unfold pkt, rx_tail. awk Hp. unfold opt. destruct (has_ant hal); (eexists; split; [reflexivity|cbn; eauto]).
  - destruct Sh as (-> & n & off & data & p0 & p1 & p2 & _ & _ & _ & _ & _ & _ & _ & -> & ->). awk Hp. eexists. split; [reflexivity|cbn; eauto].
  - destruct Sh as (-> & hal & Ho & g & r0 & r1 & r2 & r3 & _ & _ & _ & _ & _ & -> & ->). unfold pkt, rx_tail, sleep_ops. awk Hp. unfold opt. destruct (has_ant hal), (has_io_deinit hal); (eexists; split; [reflexivity|reflexivity]).
  - destruct Sh as (-> & x & y & _ & _ & -> & ->). awk Hp. unfold opt. destruct (b_handler s); (eexists; split; [reflexivity|cbn; eauto]).
  - destruct Sh as (-> & -> & ->). exists p. split; [reflexivity|exact Hp].
Qed.
Lemma used_pw H p tr h s : henv_ok H -> used126 H tr h s -> exists hi, h = unparse hi /\ Forall item_ok hi /\ exists q, pw_run p hi = Some q /\ pw_of (b_sleep s) q.
Proof.
  intros HH HU. destruct (used_ind H (fun _ hi s => exists q, pw_run p hi = Some q /\ pw_of (b_sleep s) q) HH) with (tr := tr) (h := h) (s := s) as (hi & A & B & _ & D); [| |exact HU|eauto].
  - intros o v s' es its bs Hi W L Sh. destruct (shape_pw _ _ _ _ _ p Sh (or_introl Hi)) as (q & E & Hq). exists q. split; [eapply likes_pw; eassumption|exact Hq].
  - intros tr0 hi s0 o v s' es its bs (q & E & Hq) _ W L Sh. destruct (shape_pw _ _ _ _ _ q Sh (or_intror Hq)) as (q' & E' & Hq'). exists q'. split; [|exact Hq']. rewrite pw_app, E. eapply likes_pw; eassumption.
Qed.
Lemma handler_snoc tr o v es : handler (tr ++ [(o, v, es)]) = match o with PHandler b => b | _ => handler tr end.
Proof. unfold handler. rewrite fold_left_app. reflexivity. Qed.
Lemma used_handler H tr h s : henv_ok H -> used126 H tr h s -> b_handler s = handler tr.
Proof.
  intros HH HU. destruct (used_ind H (fun tr _ s => b_handler s = handler tr) HH) with (tr := tr) (h := h) (s := s) as (hi & A & B & _ & D); [| |exact HU|exact D].
  - intros o v s' es its bs Hi W L Sh. destruct o; try discriminate. destruct Sh as (e0 & e1 & _ & _ & _ & -> & _). reflexivity.
  - intros tr0 hi s0 o v s' es its bs IH _ W L Sh. rewrite handler_snoc, <- IH.
    destruct o as [hal d| |f|q|b|q|buf|n symb t|cap| | |b]; cbn [shape] in Sh; try (destruct Sh as (_ & -> & _); reflexivity); try (destruct Sh as (-> & _); reflexivity).
    + destruct Sh as (e0 & e1 & _ & _ & _ & -> & _). reflexivity.
    + destruct Sh as (d & Hd & Sh). destruct (in_range (is_hp d) q); destruct Sh as (_ & -> & _); reflexivity.
Qed.
