(** Prop_Rest.v -- the radio sleeps while the stack is idle (C98): the calls to the radio. *)
From Verif Require Export SpecSys.
From Verif Require Import LWin LJoin2 Demo Prop_Down Prop_Join Prop_App Prop_Win.

(** The last call to the radio was sleep() or rand(), which ends in sleep (C73). *)
Definition ends_asleep (e : ev) : Prop := e = RSleep \/ exists n, e = RRand n.
Definition rests (es : list ev) : Prop := exists l e, filter asks_radio es = l ++ [e] /\ ends_asleep e.

Lemma rests_app a b : rests b -> rests (a ++ b).
Proof. intros (l & e & Q & Y). exists (filter asks_radio a ++ l), e. rewrite filter_app, Q, app_assoc. auto. Qed.
Lemma rests_quiet a b : filter asks_radio b = [] -> rests a -> rests (a ++ b).
Proof. intros B (l & e & Q & Y). exists l, e. rewrite filter_app, B, app_nil_r. auto. Qed.
Lemma asks_link es : ~ In RSetHandler es -> (forall n, ~ In (RRand n) es) -> filter asks_radio es = filter asks_radio (link es).
Proof.
  unfold link. induction es as [|e es IH]; intros A B; [reflexivity|].
  assert (I1 : filter asks_radio es = filter asks_radio (filter is_link es)) by (apply IH; [intro Q; apply A; right; exact Q|intros n Q; apply (B n); right; exact Q]).
  destruct e; cbn [filter is_link asks_radio]; rewrite ?I1; try reflexivity; exfalso; first [eapply B; left; reflexivity|apply A; left; reflexivity].
Qed.
(** ** C98: the radio sleeps while the stack is idle *)
Theorem C98_idle : forall E ops tr w, env_ok E -> Forall op_wf ops -> exec E world0 ops tr w -> phase_of tr = P_idle -> rests (all_evs tr).
Proof.
  intros E ops tr w HE Hw Hx Hp. rewrite <- (phase_sound E ops tr w HE Hw Hx) in Hp. revert Hp. revert ops tr w Hw Hx.
  apply (exec_snoc_ind E (fun tr w => st_phase w = P_idle -> rests (all_evs tr)) HE); [intro Q; discriminate Q|].
  intros ops tr w o v es w' Hw Hx HI Hr IH Ho H P. unfold all_evs in *. rewrite flat_map_app. cbn [flat_map]. change (evs_of (o, v, es)) with es. rewrite app_nil_r.
  destruct (match o with OInit _ => true | _ => false end) eqn:Oi.
  { destruct o; try discriminate Oi. destruct (C70_init E w r v es w' HE Hr H) as (_ & s & ->). apply rests_app. exists [RSetHandler], (RRand s). split; [reflexivity|]. right. eauto. }
  assert (Ni : forall r, o <> OInit r) by (intros r ->; discriminate Oi). destruct (C70_only_init E w o v es w' HE Hr Ho H Ni) as (N1 & N2 & _). pose proof (asks_link es N1 N2) as L.
  destruct (step_win E w o v es w' HE HI Ho H) as [r A B C|fr pw f A B C D F G _ _ _|m ts A B C D F G K _|m A B C D F G K _|m pre rd e t vw A B C D M1 M2 F G J _|t A B C D F|A B M1 M2 M3 M4]; try congruence.
  - assert (N1' : ~ In RSetHandler pre) by (intro Q; apply N1; rewrite F; apply in_or_app; auto). assert (N2' : forall n, ~ In (RRand n) pre) by (intros n Q; apply (N2 n); rewrite F; apply in_or_app; auto).
    apply rests_app. rewrite F. apply rests_quiet; [reflexivity|]. exists (filter asks_radio (rx_pre w ++ rd)), RSleep.
    rewrite (asks_link pre N1' N2'), G. split; [|left; reflexivity]. rewrite app_assoc, (filter_app asks_radio (rx_pre w ++ rd)). reflexivity.
  - exfalso. assert (Q : st_phase w' = st_phase w) by (unfold st_phase, ph, stk; rewrite C; reflexivity). destruct D as [[D _]|[D _]]; congruence.
  - apply rests_quiet; [rewrite L, A; reflexivity|]. apply IH. unfold st_phase in *. rewrite <- (sp_state _ _ B). exact P.
Qed.
Print Assumptions C98_idle.
(** after a downlink in the first window, with calls made since *)
Example C98_idle_case : run_of (demo [] [(dl 8 false 0 [6] None, 9)]) [] (abp 0 7 ++ after_uplink ++ [OTimer TIMER_RX1; OIrq 2; OSetDr 3; OTimer TIMER_RX2; OSend 1 (repeat 0 250) false])
  (fun w tr w' => match phase_of tr with P_idle => true | _ => false end && (length (filter asks_radio (all_evs tr)) =? 10)%nat && match rev (filter asks_radio (all_evs tr)) with RSleep :: RRead _ :: RRx _ _ _ :: _ => true | _ => false end).
Proof. show_run. Qed.
(** initialised again in the middle of a reception *)
Example C98_init_case : run_of (demo [] []) [] (abp 0 7 ++ after_uplink ++ [OTimer TIMER_RX1; OInit RU864])
  (fun w tr w' => match phase_of tr with P_idle => true | _ => false end && match rev (filter asks_radio (all_evs tr)) with RRand _ :: RSetHandler :: RRx _ _ _ :: _ => true | _ => false end).
Proof. show_run. Qed.

(** the driver's last call for the stack *)
Lemma last_served es l e d t : Forall2 served es d -> es = l ++ [e] -> (exists d', d = d' ++ [t]) -> served e t.
Proof. intros F -> (d' & ->). apply Forall2_app_inv_l in F as (x & y & _ & F2 & Q). inversion F2 as [|? t' ? ? S F3]; subst. inversion F3; subst. apply app_inj_tail in Q as [_ <-]. exact S. Qed.
Lemma served_sleeps e t : ends_asleep e -> served e t -> fst (fst t) = PSleep \/ fst (fst t) = PRand.
Proof. intros [->|(n & ->)] S; inversion S; subst; auto. Qed.
Lemma rests_last es dtr t : rests es -> Forall2 served (filter asks_radio es) (filter (fun t => negb (beside (fst (fst t)))) (dtr ++ [t])) -> negb (beside (fst (fst t))) = true ->
  fst (fst t) = PSleep \/ fst (fst t) = PRand.
Proof.
  intros (l & e & Q & A) F B. apply (served_sleeps e t A). apply (last_served _ l e _ t F Q). rewrite filter_app. cbn [filter]. rewrite B. eauto.
Qed.
Lemma rexec_last {S} (call : rop -> M S hev rval) h0 s0 d o v es h s : rexec call h0 s0 (d ++ [(o, v, es)]) h s ->
  exists h1 s1, rexec call h0 s0 d h1 s1 /\ call o h1 s1 = Ok (v, s, es) /\ h = h1 ++ es.
Proof.
  intro X. remember (d ++ [(o, v, es)]) as q eqn:Q. destruct X as [h s|h s tr h1 s1 o' v' s2 es' X C]; [destruct d; discriminate Q|].
  apply app_inj_tail in Q as [<- Q]. injection Q as -> -> ->. eauto.
Qed.
(** the driver's last call *)
Definition last_call (dtr : list rentry) : rop := last (map (fun t => fst (fst t)) dtr) PIrq.
Lemma last_call_snoc dtr : beside (last_call dtr) = false -> exists d t, dtr = d ++ [t] /\ beside (fst (fst t)) = false.
Proof.
  intro B. destruct dtr as [|t0 d0] using rev_ind; [discriminate B|]. exists d0, t0. split; [reflexivity|]. unfold last_call in B. rewrite map_app in B. cbn [map] in B. rewrite last_last in B. exact B.
Qed.
