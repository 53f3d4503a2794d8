(** LLink.v -- splitting a run of stack and driver at an interrupt *)
From Verif Require Export SpecLink LSys.
From Verif Require Import PStrict LWin2 LUp4 Prop_App.

Lemma linked_at tr dtr : linked tr dtr -> forall tr1 t tr2, tr = tr1 ++ t :: tr2 -> exists dtr1 seg dtr2, dtr = dtr1 ++ seg ++ dtr2 /\ linked tr1 dtr1 /\ link1 t seg.
Proof.
  induction 1 as [hal d l W|tr dtr t ds L IH L1|tr dtr t L IH A]; intros tr1 u tr2 Q.
  - destruct tr1; discriminate Q.
  - destruct (@exists_last _ (u :: tr2) ltac:(discriminate)) as (m & x & Em). rewrite Em, app_assoc in Q. apply app_inj_tail in Q as [Q ->].
    destruct m as [|y m].
    + cbn in Em. injection Em as -> ->. rewrite app_nil_r in Q. subst tr1. exists dtr, ds, []. rewrite app_nil_r. auto.
    + cbn in Em. injection Em as <- ->. destruct (IH _ _ _ Q) as (d1 & sg & d2 & -> & L' & L1'). exists d1, sg, (d2 ++ ds). rewrite <- !app_assoc. auto.
  - destruct (IH _ _ _ Q) as (d1 & sg & d2 & -> & L' & L1'). exists d1, sg, (d2 ++ [t]). rewrite <- !app_assoc. auto.
Qed.
Lemma served_by e t : served e t -> by_stack t = true. Proof. intro S. inversion S; reflexivity. Qed.
Lemma served_all es ds : Forall2 served es ds -> filter by_stack ds = ds.
Proof. induction 1 as [|e t es ds S F IH]; [reflexivity|]. cbn [filter]. rewrite (served_by _ _ S), IH. reflexivity. Qed.
Lemma all_evs_snoc tr o v es : all_evs (tr ++ [(o, v, es)]) = all_evs tr ++ es.
Proof. unfold all_evs. rewrite flat_map_app. cbn. rewrite app_nil_r. reflexivity. Qed.
Lemma linked_drives tr dtr : linked tr dtr -> drives (all_evs tr) dtr.
Proof.
  unfold drives. induction 1 as [hal d l W|tr dtr t ds L IH L1|tr dtr t L IH A].
  - exists hal, d, l, []. split; [reflexivity|]. split; [exact W|constructor].
  - destruct IH as (hal & d & l & dtr' & -> & W & F). exists hal, d, l, (dtr' ++ ds). split; [reflexivity|]. split; [exact W|].
    destruct t as [[o v] es]. rewrite all_evs_snoc, !filter_app. apply Forall2_app; [exact F|].
    inversion L1 as [o' v' es' ds' N S|m v' es' r l' ds' I S]; subst; exact (eq_ind_r (fun z => Forall2 served (filter asks_radio es) z) S (served_all _ _ S)).
  - destruct IH as (hal & d & l & dtr' & -> & W & F). exists hal, d, l, (dtr' ++ [t]). split; [reflexivity|]. split; [exact W|]. rewrite filter_app.
    assert (B : filter (fun t : rentry => negb (beside (fst (fst t)))) [t] = []).
    { destruct t as [[o v] es]. cbn [apart] in A. destruct o as [| | | |[|]| | | | | | |]; try contradiction; reflexivity. }
    unfold rentry in *. rewrite B, app_nil_r. exact F.
Qed.
Lemma rexec_app_inv {S} (call : rop -> M S hev rval) a b : forall h s h' s', rexec call h s (a ++ b) h' s' -> exists h1 s1, rexec call h s a h1 s1 /\ rexec call h1 s1 b h' s'.
Proof.
  induction b as [|t b IH] using rev_ind; intros h s h' s' X.
  - rewrite app_nil_r in X. exists h', s'. split; [exact X|constructor].
  - rewrite app_assoc in X. remember ((a ++ b) ++ [t]) as l eqn:El. destruct X as [h s|h s tr h1 s1 o v s2 es X C]; [destruct (a ++ b); discriminate El|].
    apply app_inj_tail in El as [-> <-]. destruct (IH _ _ _ _ X) as (h2 & s3 & X1 & X2). exists h2, s3. split; [exact X1|]. econstructor; eassumption.
Qed.
Lemma rexec_bus {S} (call : rop -> M S hev rval) tr h s h' s' : rexec call h s tr h' s' -> h' = h ++ bus tr.
Proof.
  induction 1 as [h s|h s tr h1 s1 o v s2 es X IH C]; unfold bus in *; [rewrite app_nil_r; reflexivity|]. subst h1. rewrite flat_map_app. cbn. rewrite app_nil_r, app_assoc. reflexivity.
Qed.
Lemma rexec_one {S} (call : rop -> M S hev rval) h s o v es b h' s' : rexec call h s ((o, v, es) :: b) h' s' -> exists s1, call o h s = Ok (v, s1, es) /\ rexec call (h ++ es) s1 b h' s'.
Proof.
  intro X. apply (rexec_app_inv call [(o, v, es)] b) in X as (h1 & s1 & X1 & X2).
  inversion X1 as [|h0 s0 tr h2 s2 o' v' s3 es' X0 C Q1 Q2 Q3]; subst. change [(o, v, es)] with (([] : list rentry) ++ [(o, v, es)]) in Q3. apply app_inj_tail in Q3 as [Q3 Q4].
  injection Q4 as -> -> ->. subst tr. inversion X0 as [|h0 s0 tr h3 s4 o' v' s5 es' X3 C3 Q5 Q6 Q7]; subst; [|destruct tr; discriminate Q7]. exists s1. auto.
Qed.
Lemma exec_at E ops tr w : exec E world0 ops tr w -> Forall op_wf ops -> forall tr1 o v es tr2, tr = tr1 ++ (o, v, es) :: tr2 ->
  exists ops1 w1 w2, Forall op_wf ops1 /\ exec E world0 ops1 tr1 w1 /\ op_wf o /\ step E w1 o = Some (v, es, w2).
Proof.
  intros X W. assert (G : forall w0 ops tr w, exec E w0 ops tr w -> Forall op_wf ops -> forall tr1 o v es tr2, tr = tr1 ++ (o, v, es) :: tr2 ->
    exists ops1 w1 w2, Forall op_wf ops1 /\ exec E w0 ops1 tr1 w1 /\ op_wf o /\ step E w1 o = Some (v, es, w2)); [|eapply G; eassumption].
  clear. induction 1 as [w|w o ops v es w1 tr w2 H X IH]; intros W tr1 o' v' es' tr2 Q; [destruct tr1; discriminate Q|]. inversion W; subst.
  destruct tr1 as [|t tr1]; cbn in Q.
  - injection Q as -> -> -> _. exists [], w, w1. repeat split; [constructor|constructor|assumption|exact H].
  - injection Q as Q1 Q2. subst t. destruct (IH ltac:(assumption) _ _ _ _ _ Q2) as (ops1 & u1 & u2 & A & B & C & D). exists (o :: ops1), u1, u2. split; [constructor; assumption|]. split; [econstructor; eassumption|]. auto.
Qed.
(** the driver has been initialised, its arguments are of their C types *)
Lemma linked_wf E ops tr w dtr : env_ok E -> Forall op_wf ops -> exec E world0 ops tr w -> linked tr dtr -> rtrace_wf dtr.
Proof.
  intros HE W X L. destruct (linked_drives _ _ L) as (hal & d & l & dtr' & -> & Wi & F). split; [|eauto 6].
  constructor; [exact Wi|]. eapply drives_wf; [exact (run_safe E ops tr w HE W X)|exact F].
Qed.
Lemma rtrace_wf_app a b : a <> [] -> rtrace_wf (a ++ b) -> rtrace_wf a.
Proof. intros N (F & hal & o & v & es & t & Q). destruct a as [|x a]; [destruct (N eq_refl)|]. apply Forall_app in F as [F _]. split; [exact F|]. cbn in Q. injection Q as -> _. eauto 6. Qed.
Lemma linked_nonempty tr dtr : linked tr dtr -> dtr <> [].
Proof. intro L. destruct (linked_drives _ _ L) as (? & ? & ? & ? & -> & _). discriminate. Qed.
(** a frame is read from the radio only when there is one, and then the radio sleeps *)
Lemma read_then_sleep E w m v es w' : env_ok E -> reachable E w -> op_wf (OIrq m) -> step E w (OIrq m) = Some (v, es, w') ->
  (receives w m /\ filter asks_radio es = [RRead (received E w); RSleep]) \/ (~ receives w m /\ forall p, ~ In (RRead p) es).
Proof.
  intros HE R W H. pose proof (reach_Inv E w HE R) as HI. pose proof (step_win E w _ v es w' HE HI W H) as C.
  assert (B : existsb is_boot es = false) by (apply (step_boot E w _ v es w' HE HI W H); discriminate).
  assert (NR : forall l, link es = l -> (forall p, ~ In (RRead p) l) -> forall p, ~ In (RRead p) es).
  { intros l <- N p I. apply (N p). unfold link. apply filter_In. split; [exact I|reflexivity]. }
  destruct C as [r A|fr pw f A|m' ts A _ P _ _ L|m' A _ P T0 _ L|m' pre rd e t vw A _ P _ N1 N2 Ee L D _|t A|L S N1 N2 N3 N4]; try discriminate A.
  - destruct A as [A|A]; discriminate A.
  - right. split; [|apply (NR _ L); intros p I; rewrite in_app_iff in I; destruct I as [I|I]; [cbn in I; intuition discriminate|apply in_map_iff in I as (x & Q & _); discriminate Q]].
    intros (S1 & _). revert P. unfold st_phase, ph. destruct S1 as [-> | ->]; discriminate.
  - injection A as <-. right. split; [|subst es; intros p I; cbn in I; intuition discriminate]. intros (_ & T & _). congruence.
  - injection A as <-. subst es. rewrite existsb_app in B. apply Bool.orb_false_iff in B as [B _]. rewrite filter_app, (filter_link _ B), L. cbn [filter asks_radio].
    assert (RP : filter asks_radio (rx_pre w) = [] /\ forall p, ~ In (RRead p) (rx_pre w)) by (unfold rx_pre; destruct (uw_state (stk w)); cbn; intuition discriminate).
    destruct D as [(-> & D)|(-> & D & _)].
    + left. split; [exact D|]. rewrite !filter_app, (proj1 RP). reflexivity.
    + right. split; [exact D|]. intros p I. apply in_app_iff in I as [I|I]; [|cbn in I; intuition discriminate].
      assert (J : In (RRead p) (link pre)) by (unfold link; apply filter_In; split; [exact I|reflexivity]). rewrite L in J. apply in_app_iff in J as [J|J]; [exact (proj2 RP p J)|cbn in J; intuition discriminate].
  - right. destruct (N2 m eq_refl) as (-> & Q). split; [|intros p []]. intros (S1 & T0 & T1 & _). unfold st_phase, ph in Q.
    destruct S1 as [S1|S1]; rewrite S1 in Q; intuition (try discriminate; try congruence).
Qed.
(** the handler's call is seen in the transcript *)
Lemma parse_user m es : forall cur its, parse cur es = Some its -> In (HUser m) es -> In m (user_calls its).
Proof.
  unfold user_calls. induction es as [|e es IH]; intros cur its P I; [destruct I|]. cbn [parse] in P.
  destruct e as [b|[|]|o i|u| | | |b|u], cur as [x|]; try discriminate P; (destruct I as [I|I]; [try discriminate I|]);
    try (destruct (parse None es) as [j|] eqn:Pj; [|discriminate P]; injection P as <-; cbn [flat_map app]; eauto using in_or_app; fail).
  - eapply IH; [exact P|exact I].
  - destruct x as [|y x]; [discriminate P|]. destruct (parse None es) as [j|] eqn:Pj; [|discriminate P]. injection P as <-. cbn [flat_map app]. eapply IH; [exact Pj|exact I].
  - eapply IH; [exact P|exact I].
  - injection I as ->. destruct (parse None es) as [j|] eqn:Pj; [|discriminate P]. injection P as <-. left. reflexivity.
  - destruct (parse None es) as [j|] eqn:Pj; [|discriminate P]. injection P as <-. cbn [flat_map app]. right. eapply IH; [exact Pj|exact I].
Qed.
(** the interrupt that an event of the radio comes with *)
Lemma irq_split E ops tr w dtr tr1 m v es tr2 : env_ok E -> Forall op_wf ops -> exec E world0 ops tr w -> linked tr dtr -> tr = tr1 ++ (OIrq m, v, es) :: tr2 ->
  exists ops1 w1 w2 dtr1 r l ds dtr2, Forall op_wf ops1 /\ exec E world0 ops1 tr1 w1 /\ reachable E w1 /\ op_wf (OIrq m) /\ step E w1 (OIrq m) = Some (v, es, w2) /\
    dtr = dtr1 ++ ((PIrq, r, l) :: ds) ++ dtr2 /\ linked tr1 dtr1 /\ rtrace_wf dtr1 /\ In (HUser m) l /\ Forall2 served (filter asks_radio es) ds.
Proof.
  intros HE W X L Q. destruct (exec_at E ops tr w X W _ _ _ _ _ Q) as (ops1 & w1 & w2 & W1 & X1 & Wm & S). destruct (linked_at _ _ L _ _ _ Q) as (dtr1 & seg & dtr2 & -> & L1 & K).
  inversion K as [o v' es' ds N F|m' v' es' r l ds I F]; subst; [destruct (N m eq_refl)|]. exists ops1, w1, w2, dtr1, r, l, ds, dtr2.
  repeat (split; [first [assumption|reflexivity|exists ops1, tr1; auto]|]). split; [eapply linked_wf; eassumption|]. auto.
Qed.
Lemma used_more {S} (call : rop -> M S hev rval) h0 s0 tr h s o v s' es : rexec call h0 s0 tr h s -> rtrace_wf tr -> rop_wf o -> call o h s = Ok (v, s', es) ->
  rexec call h0 s0 (tr ++ [(o, v, es)]) (h ++ es) s' /\ rtrace_wf (tr ++ [(o, v, es)]).
Proof.
  intros X (F & hal & d & v0 & es0 & t & Q) W C. split; [econstructor; eassumption|]. split; [apply Forall_app; split; [exact F|repeat constructor; exact W]|]. subst tr. cbn. eauto 6.
Qed.
