(** Prop_Lang.v -- C101 for stack and SX1261/2 driver together *)
From Verif Require Import LSys LLink LWant6 Prop_Lang6 SpecLang PApi Prop_App Prop_Radio6 Prop_Sys6 Demo DemoRadio DemoSys.

(** the entries of the driver's trace, one by one *)
Lemma served_at a t b : forall res, by_stack t = true -> Forall2 served res (filter by_stack (a ++ t :: b)) ->
  exists r1 e r2, res = r1 ++ e :: r2 /\ Forall2 served r1 (filter by_stack a) /\ served e t.
Proof.
  intros res B F. rewrite filter_app in F. cbn [filter] in F. rewrite B in F. apply Forall2_app_inv_r in F as (r1 & r & F1 & F2 & ->). inversion F2 as [|e t' r2 l Se F3]; subst. eauto 8.
Qed.
(** ** C101: whatever the application does and hears, the driver says to the chip only what
    it knows. Missing: rand(), see below. *)
Theorem C101_system_partial : forall E H ops tr w dtr h s, env_ok E -> henv_ok H -> Forall op_wf ops -> exec E world0 ops tr w ->
  drives (all_evs tr) dtr -> rexec (call126 H) [] Sx126x.d126_0 dtr h s ->
  forall a o v es b its x, dtr = a ++ (o, v, es) :: b -> volts_ok o -> o <> PRand -> transcript es = Some its -> In (Tr x) its -> speaks126 (hp (a ++ [(o, v, es)])) (mosi x) = true.
Proof.
  intros E H ops tr w dtr h s HE HH Ho Hx (hal & d & l & dtr' & Ed & W & F) X a o v es b its x Q V N Ht Hin. pose proof (run_safe E ops tr w HE Ho Hx) as S.
  rewrite Q in X. apply rexec_app_inv in X as (h1 & s1 & X1 & X2). apply rexec_one in X2 as (s2 & C & _).
  destruct a as [|t a']; cbn [app] in Q.
  - rewrite Ed in Q. injection Q as <- <- <- <-. inversion X1; subst; [|destruct tr0; discriminate]. exact (C101_sx126x_init_partial H hal d _ _ _ _ HH W V C Ht x Hin).
  - rewrite Ed in Q. injection Q as <- ->. pose proof (drives_wf _ _ _ S F) as Wd.
    assert (U : used126 H ((PInit hal d, RvBool true, l) :: a') h1 s1).
    { split; [exact X1|]. split; [|eauto 8]. apply Forall_app in Wd as [Wa _]. constructor; [exact W|exact Wa]. }
    assert (Wo : rop_wf o) by (apply Forall_app in Wd as [_ Wb]; inversion Wb; assumption).
    destruct (used_pos H _ h1 s1 HH U) as (hi & Eh & Fi & _). assert (Th : transcript h1 = Some hi) by (rewrite Eh; apply transcript_unparse, Fi).
    apply (C101_sx126x_partial H _ h1 s1 o v s2 es hi its HH (conj U (conj Wo (conj C (conj Th Ht)))) V); [|exact Hin].
    destruct (by_stack (o, v, es)) eqn:B; [|destruct o; try exact I; discriminate B].
    destruct (served_at _ _ _ _ B F) as (r1 & e & r2 & Er & F1 & Se). rewrite Er in S. apply safe_app in S as (S1 & G & _).
    destruct (sys_run H on126 _ h1 s1 HH U _ _ _ _ _ eq_refl S1 F1) as (_ & _ & _ & (_ & _ & _ & R & _) & _).
    inversion Se; subst; try exact I.
    + exfalso. apply N. reflexivity.
    + destruct G as (_ & _ & _ & (dr & _ & P) & _). cbn [preamble_ok]. exists (lora dr false). split; [congruence|cbn; lia].
    + destruct G as (_ & _ & _ & _ & (dr & _ & P)). cbn [preamble_ok]. exists (lora dr true). split; [congruence|cbn; lia].
Qed.
Print Assumptions C101_system_partial.
Lemma served_first l : forall e res, Forall2 served (e :: res) (filter by_stack l) ->
  exists a t b, l = a ++ t :: b /\ Forall (fun t => beside (fst (fst t)) = true) a /\ served e t /\ Forall2 served res (filter by_stack b).
Proof.
  induction l as [|t l IH]; intros e res F; [inversion F|]. cbn [filter] in F. unfold by_stack at 1 in F. destruct (beside (fst (fst t))) eqn:B; cbn [negb] in F.
  - destruct (IH _ _ F) as (a & t' & b & -> & Fa & Se & Fb). exists (t :: a), t', b. split; [reflexivity|]. split; [constructor; assumption|]. auto.
  - inversion F; subst. exists [], t, l. split; [reflexivity|]. split; [constructor|]. auto.
Qed.
(** Every device that starts with uwan_init sends a preamble length of 0: the random number
    it draws comes before anything it sets up. *)
Theorem C101_system_refuted : forall E H r ops tr w dtr h s hi, env_ok E -> henv_ok H -> Forall op_wf (OInit r :: ops) -> exec E world0 (OInit r :: ops) tr w ->
  drives (all_evs tr) dtr -> rexec (call126 H) [] Sx126x.d126_0 dtr h s -> transcript h = Some hi ->
  exists x, In (Tr x) hi /\ mosi x = [140; 0; 0; 0; 255; 0; 0] /\ forall hp, speaks126 hp (mosi x) = false.
Proof.
  intros E H r ops tr w dtr h s hi HE HH Ho Hx (hal & d & l & dtr' & Ed & W & F) X Th. pose proof (run_safe E _ tr w HE Ho Hx) as S. pose proof (drives_wf _ _ _ S F) as Wd.
  inversion Hx as [|w0 o0 ops0 v0 es0 w1 tr0 w2 Q Hx']; subst. inversion Ho as [|? ? Ho1 _]; subst.
  assert (R0 : reachable E world0) by (exists [], []; split; constructor). destruct (C70_init E world0 r v0 es0 w1 HE R0 Q) as (_ & sd & ->).
  unfold all_evs in F. cbn [flat_map evs_of snd] in F. rewrite filter_app in F. cbn [filter asks_radio app] in F.
  destruct (served_first _ _ _ F) as (a1 & t1 & b1 & -> & A1 & S1 & F1). destruct (served_first _ _ _ F1) as (a2 & t2 & b2 & -> & A2 & S2 & _).
  inversion S1; subst. inversion S2; subst.
  match type of X with rexec _ _ _ (?i :: a1 ++ ?t :: a2 ++ (PRand, ?rv, ?re) :: b2) _ _ => set (pre := i :: a1 ++ t :: a2) in *; set (rr := rv) in *; set (ee := re) in * end.
  assert (X0 : rexec (call126 H) [] Sx126x.d126_0 (pre ++ (PRand, rr, ee) :: b2) h s) by (unfold pre; cbn [app]; rewrite <- app_assoc; exact X).
  apply rexec_app_inv in X0 as (h1 & s1 & X1 & X2). apply rexec_one in X2 as (s2 & C & X3).
  assert (Wpre : Forall (fun t => rop_wf (fst (fst t))) pre).
  { unfold pre. constructor; [exact W|]. apply Forall_app in Wd as [D1 D2]. inversion D2 as [|? ? D3 D4]; subst. apply Forall_app in D4 as [D5 _]. apply Forall_app. split; [exact D1|constructor; assumption]. }
  assert (U : used126 H pre h1 s1) by (split; [exact X1|]; split; [exact Wpre|unfold pre; eauto 8]).
  destruct (used_pos H pre h1 s1 HH U) as (hi1 & Eh & Fi & _). assert (Th1 : transcript h1 = Some hi1) by (rewrite Eh; apply transcript_unparse, Fi).
  destruct (C47_sx126x H h1 s1 PRand rr s2 ee HH (or_introl (ex_intro _ pre U)) I C) as (_ & (its & Ti)).
  assert (Np : Forall (fun t => match fst (fst t) with PSetup _ => False | _ => True end) pre).
  { assert (Nb : forall a : list rentry, Forall (fun t => beside (fst (fst t)) = true) a -> Forall (fun t => match fst (fst t) with PSetup _ => False | _ => True end) a).
    { intros a Fa. eapply Forall_impl; [|exact Fa]. intros [[o9 v9] e9] B. cbn [fst] in *. destruct o9; try exact I. discriminate B. }
    unfold pre. constructor; [exact I|]. apply Forall_app. split; [apply Nb, A1|]. constructor; [exact I|apply Nb, A2]. }
  destruct (C101_sx126x_refuted H pre h1 s1 rr s2 ee hi1 its HH (conj U (conj I (conj C (conj Th1 Ti)))) Np) as (x & Hin & Hm & _).
  exists x. split; [|split; [exact Hm|intros []; rewrite Hm; reflexivity]].
  pose proof (rexec_bus _ _ _ _ _ _ X3) as Hb. rewrite Hb, Eh, <- app_assoc, (transcript_app hi1 _ Fi) in Th.
  assert (U2 : used126 H (pre ++ [(PRand, rr, ee)]) (h1 ++ ee) s2).
  { split; [econstructor; [exact X1|exact C]|]. split; [apply Forall_app; split; [exact Wpre|repeat constructor]|unfold pre; cbn [app]; eauto 8]. }
  destruct (used_pos H _ _ _ HH U2) as (hi2 & Eh2 & Fi2 & _). assert (Q2 : hi2 = hi1 ++ its).
  { assert (T2 : transcript (h1 ++ ee) = Some hi2) by (rewrite Eh2; apply transcript_unparse, Fi2). rewrite Eh, (transcript_app hi1 _ Fi), Ti in T2. injection T2 as <-. reflexivity. }
  rewrite <- (transcript_app hi1 _ Fi), <- Eh, app_assoc, Eh2, (transcript_app hi2 _ Fi2) in Th. destruct (transcript (bus b2)); [|discriminate Th]. injection Th as <-.
  rewrite Q2, !in_app_iff. auto.
Qed.
Print Assumptions C101_system_refuted.
(** the hypotheses of both: an uplink with its windows, sent by the two together *)
Local Definition t6 : list (Z * list Z) := [(29, [0; 0; 0; 7]); (19, [0; 3; 5]); (30, [0; 0; 96; 1; 2]); (20, [0; 100; 40; 100])].
Local Definition E6 : env := with_radio 7 (Mk_rxpkt [96; 1; 2] (-50) 10) (demo [5; 9] []).
Definition clean (t : rentry) : bool := match transcript (snd t) with Some its => all_said true its | None => false end.
Example C101_system_case : together (call126 (sim126 t6)) Sx126x.d126_0 cfg E6 (abp 0 0 ++ [OSetEirp 15] ++ day) (fun tr dtr hi =>
  hp dtr && negb (all_said true hi) && (length (filter (fun t => negb (clean t)) dtr) =? 1)%nat && existsb (fun t => match fst (fst t) with PTx _ => clean t | _ => false end) dtr) = true.
Proof. vm_compute. reflexivity. Qed.
