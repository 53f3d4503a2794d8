(** Prop_Bus.v -- the radio does not interrupt those who talk to it (C100): the stack. *)
From Verif Require Import SpecBus LWin LWin2 LJoin2 Demo Prop_Down Prop_Join Prop_App Prop_Win Prop_Rest.

Lemma air_due es : (forall n, ~ In (RRand n) es) -> forall x, fold_left air_ev es x = fold_left due_ev (link es) x.
Proof.
  intros N x. rewrite due_link. revert x N. induction es as [|e es IH]; intros x N; [reflexivity|]. cbn [fold_left].
  assert (Q : air_ev x e = due_ev x e) by (destruct e; try reflexivity; exfalso; eapply N; left; reflexivity). rewrite Q. apply IH. intros n I. apply (N n). right. exact I.
Qed.
Lemma air_snoc tr o v es : air_of (tr ++ [(o, v, es)]) = fold_left air_ev es (air_op (air_of tr) o).
Proof. unfold air_of. rewrite fold_left_app. reflexivity. Qed.
Lemma due_times ts x : fold_left due_ev (map MGetTime ts) x = x.
Proof. induction ts as [|t ts IH]; [reflexivity|]. exact IH. Qed.
(** what is on the air in each phase *)
Definition on_air (p : phase) (x : due) : Prop :=
  match p with
  | P_off | P_idle => due_radio x = None
  | P_tx => due_radio x = Some Op_tx
  | P_rx1 => due_radio x = None \/ due_radio x = Some Op_rx /\ due_t1 x = false
  | P_rx2 => due_radio x = None \/ due_radio x = Some Op_rx /\ due_t2 x = false
  end.
Definition free (x : due) (o : op) (es : list ev) : Prop :=
  (filter asks_radio es <> [] -> due_radio (air_op x o) = None) /\ (forall l e l', filter asks_radio es = l ++ e :: l' -> starts_radio e = true -> l' = []).
Lemma free_quiet x o es : filter asks_radio es = [] -> free x o es.
Proof. intro Q. split; [intro N; destruct (N Q)|]. intros l e l' H. rewrite Q in H. destruct l; discriminate H. Qed.
Lemma last_starts es l0 e0 : filter asks_radio es = l0 ++ [e0] -> existsb starts_radio l0 = false -> forall l e l', filter asks_radio es = l ++ e :: l' -> starts_radio e = true -> l' = [].
Proof.
  intros -> N l e l' Q S. revert l0 N Q. induction l as [|y l IH]; intros l0 N Q.
  - destruct l0 as [|z l0]; cbn in Q; injection Q as <- Q; [symmetry; exact Q|]. cbn in N. rewrite S in N. discriminate N.
  - destruct l0 as [|z l0]; cbn in Q; [destruct l; discriminate Q|]. injection Q as -> Q. cbn in N. apply Bool.orb_false_iff in N as [_ N]. exact (IH l0 N Q).
Qed.
Lemma air_other o w w' x : on_air (st_phase w) x -> st_phase w' = st_phase w ->
  (forall m, o = OIrq m -> st_phase w = P_tx /\ Z.testbit m 2 = false \/ (st_phase w = P_rx1 \/ st_phase w = P_rx2) /\ Z.testbit m 0 = false /\ Z.testbit m 1 = false \/ st_phase w = P_off \/ st_phase w = P_idle) ->
  on_air (st_phase w') (air_op x o).
Proof.
  intros A -> M. destruct o; cbn [air_op]; try exact A.
  - destruct (st_phase w); destruct t; cbn in *; try exact A; destruct A as [A|[A1 A2]]; auto.
  - destruct (due_radio x) as [r|] eqn:R; [|exact A]. destruct (M _ eq_refl) as [[P T]|[[P [T0 T1]]|P]].
    + rewrite P in A |- *. cbn [on_air] in A. rewrite R in A. injection A as ->. cbn [ends]. rewrite T. exact R.
    + assert (Q : r = Op_rx) by (destruct P as [P|P]; rewrite P in A; cbn in A; rewrite R in A; destruct A as [A|[A _]]; congruence). subst r. cbn [ends]. rewrite T0, T1. exact A.
    + exfalso. destruct P as [P|P]; rewrite P in A; cbn in A; congruence.
Qed.

(** ** C100: apart from uwan_init, the stack calls the radio only when it is neither sending
    nor receiving, and calls tx() and rx() last. *)
Lemma bus_step E w o v es w' x : env_ok E -> Inv (w_st w) -> reachable E w -> op_wf o -> step E w o = Some (v, es, w') -> on_air (st_phase w) x -> fires x o ->
  on_air (st_phase w') (fold_left air_ev es (air_op x o)) /\ ((forall r, o <> OInit r) -> free x o es).
Proof.
  intros HE HI Hr Ho H A F. destruct (match o with OInit _ => true | _ => false end) eqn:Oi.
  { destruct o; try discriminate Oi. destruct (C70_init E w r v es w' HE Hr H) as (_ & s & ->). split; [|intro N; destruct (N r eq_refl)].
    destruct (step_win E w (OInit r) v [RSetHandler; RRand s; LSrand s] w' HE HI Ho H) as [r0 _ _ C|? ? ? X|? ? X|? X|? ? ? ? ? ? X|? X|_ _ X]; try discriminate X; [|destruct X as [X|X]; discriminate X|destruct (X r eq_refl)].
    rewrite C. reflexivity. }
  assert (Ni : forall r, o <> OInit r) by (intros r ->; discriminate Oi). destruct (C70_only_init E w o v es w' HE Hr Ho H Ni) as (N1 & N2 & _). pose proof (asks_link es N1 N2) as L. rewrite (air_due es N2).
  pose proof (step_win E w o v es w' HE HI Ho H) as WC.
  destruct WC as [r A0 B C|fr pw f A0 B C D K _ _ _ _|m ts A0 B C D K G _ _|m A0 B C D K G _ _|m pre rd e t vw A0 B C D M1 M2 K G J _|t A0 B C D K|A0 B M1 M2 M3 M4].
  - destruct (Ni r A0).
  - rewrite C in A. cbn in A. rewrite D, K. assert (Q : due_radio (air_op x o) = None) by (destruct A0 as [-> |A0]; [exact A|destruct o; try discriminate A0; exact A]).
    split; [reflexivity|]. intros _. split; [intros _; exact Q|]. rewrite K in L. cbn in L. apply (last_starts es [RSetFreq fr; RSetup (lora (tx_dr_of o w) false); RSetPower pw] (RTx f)); [exact L|reflexivity].
  - subst o. rewrite C in A. cbn in A. rewrite K, G. assert (Q : air_op x (OIrq m) = landed x) by (cbn [air_op]; rewrite A; cbn [ends]; rewrite D; reflexivity). rewrite Q, fold_left_app, due_times. split; [left; reflexivity|].
    intros _. split; [intros _; rewrite Q; reflexivity|]. rewrite G, filter_app in L. assert (T : filter asks_radio (map MGetTime ts) = []) by (clear; induction ts as [|y ts IH]; [reflexivity|exact IH]). rewrite T in L. cbn in L.
    apply (last_starts es [] (RSetup (rx1_params (w_st w)))); [exact L|reflexivity].
  - subst o. rewrite C in A. cbn in A. rewrite K. assert (Q : due_radio (air_op x (OIrq m)) = None).
    { cbn [air_op]. destruct A as [A|[A _]]; rewrite A; [exact A|]. cbn [ends]. rewrite D. reflexivity. }
    subst es. split; [left; exact Q|]. intros _. split; [intros _; exact Q|]. apply (last_starts _ [RSetFreq (uw_rx2_frequency (stk w))] (RSetup (lora (uw_rx2_dr (stk w)) true))); reflexivity.
  - subst o. rewrite D. assert (Q : due_radio (air_op x (OIrq m)) = None).
    { cbn [air_op]. assert (R : due_radio x = None \/ due_radio x = Some Op_rx) by (destruct C as [C|C]; rewrite C in A; cbn in A; destruct A as [A|[A _]]; auto).
      destruct R as [R|R]; rewrite R; [exact R|]. cbn [ends]. assert (T : Z.testbit m 0 || Z.testbit m 1 = true).
      { destruct C as [C|C]; [destruct (M1 C) as [T0 T1]; rewrite T0, T1; reflexivity|]. destruct (M2 C) as [T|T]; rewrite T; destruct (Z.testbit m 0); reflexivity. }
      rewrite T. reflexivity. }
    assert (Lk : link es = (rx_pre w ++ rd) ++ [RSleep; CbDown e t vw]).
    { rewrite K. unfold link in *. rewrite filter_app, G. rewrite <- !app_assoc. reflexivity. }
    rewrite Lk. split; [rewrite fold_left_app; reflexivity|]. intros _. split; [intros _; exact Q|].
    rewrite Lk, filter_app in L. cbn [filter asks_radio] in L. apply (last_starts es _ _ L). unfold rx_pre. assert (Rd : rd = [] \/ exists p, rd = [RRead p]) by (destruct J as [(-> & _)|(-> & _)]; eauto).
    destruct (uw_state (stk w)); destruct Rd as [-> |(p & ->)]; reflexivity.
  - assert (Q : st_phase w' = st_phase w) by (unfold st_phase, ph, stk; rewrite C; reflexivity). subst o. rewrite Q, K. destruct D as [(D & ->)|(D & ->)]; rewrite D in *; cbn in A, F.
    + assert (R : due_radio x = None) by (destruct A as [A|[_ A]]; [exact A|congruence]). split; [right; split; reflexivity|]. intros _. split; [intros _; exact R|]. apply (last_starts _ [] (RRx 255 8 0)); reflexivity.
    + assert (R : due_radio x = None) by (destruct A as [A|[_ A]]; [exact A|congruence]). split; [right; split; reflexivity|]. intros _. split; [intros _; exact R|]. apply (last_starts _ [] (RRx 255 8 0)); reflexivity.
  - assert (Q : st_phase w' = st_phase w) by (unfold st_phase; rewrite (sp_state _ _ B); reflexivity). rewrite A0. cbn [fold_left]. split; [|intros _; apply free_quiet; rewrite L, A0; reflexivity].
    apply (air_other o w w' x); [exact A|exact Q|]. intros m ->. destruct (M2 m eq_refl) as (_ & [P|[P|[P|P]]]); tauto.
Qed.
Theorem C100_stack_partial : forall E ops tr w, env_ok E -> Forall op_wf ops -> exec E world0 ops tr w -> timely tr ->
  forall a o v es b, tr = a ++ (o, v, es) :: b -> (forall r, o <> OInit r) ->
  (filter asks_radio es <> [] -> due_radio (air_op (air_of a) o) = None) /\ (forall l e l', filter asks_radio es = l ++ e :: l' -> starts_radio e = true -> l' = []).
Proof.
  intros E ops tr w HE Hw Hx. assert (G : timely tr -> on_air (st_phase w) (air_of tr) /\ forall a o v es b, tr = a ++ (o, v, es) :: b -> (forall r, o <> OInit r) -> free (air_of a) o es).
  { revert ops tr w Hw Hx. apply (exec_snoc_ind E (fun tr w => timely tr -> on_air (st_phase w) (air_of tr) /\ forall a o v es b, tr = a ++ (o, v, es) :: b -> (forall r, o <> OInit r) -> free (air_of a) o es) HE).
    - intros _. split; [reflexivity|]. intros a o v es b Q. destruct a; discriminate Q.
    - intros ops tr w o v es w' Hw Hx HI Hr IH Ho H T. assert (T0 : timely tr) by (intros a t b ->; apply (T a t (b ++ [(o, v, es)])); rewrite <- app_assoc; reflexivity).
      destruct (IH T0) as [A Fr]. assert (F : fires (air_of tr) o) by exact (T tr (o, v, es) [] eq_refl).
      destruct (bus_step E w o v es w' (air_of tr) HE HI Hr Ho H A F) as [A' F']. split; [rewrite air_snoc; exact A'|].
      intros a o1 v1 es1 b Q N. destruct b as [|t b] using rev_ind.
      + apply app_inj_tail in Q as [-> Q]. injection Q as -> -> ->. exact (F' N).
      + clear IHb. change (a ++ (o1, v1, es1) :: b ++ [t]) with (a ++ ((o1, v1, es1) :: b) ++ [t]) in Q. rewrite app_assoc in Q. apply app_inj_tail in Q as [Q _]. exact (Fr a o1 v1 es1 b Q N). }
  intros T a o v es b Q N. exact (proj2 (G T) a o v es b Q N).
Qed.
Print Assumptions C100_stack_partial.
Definition firesb (x : due) (o : op) : bool := match o with OTimer TIMER_RX1 => due_t1 x | OTimer TIMER_RX2 => due_t2 x | _ => true end.
Fixpoint timelyb (x : due) (tr : list entry) : bool := match tr with [] => true | t :: tr' => firesb x (fst (fst t)) && timelyb (air_step x t) tr' end.
Lemma timelyb_ok tr : timelyb nothing tr = true -> timely tr.
Proof.
  intros H a t b ->. revert H. unfold air_of. generalize nothing. induction a as [|u a IH]; intros x H; cbn [app timelyb] in H; apply andb_prop in H as [F H].
  - cbn [fold_left]. unfold firesb in F. unfold fires. destruct (fst (fst t)); try exact I. destruct t0; exact F.
  - apply (IH _ H).
Qed.
(** two uplinks, the first answered in the second window, the second one silent; the radio is
    called 23 times *)
Example C100_stack_case : run_of (demo [] [(dl 8 false 0 [6] None, 9)]) [] (abp 0 7 ++ after_uplink ++ [OTimer TIMER_RX1; OIrq 1; OSetDr 3; OTimer TIMER_RX2; OIrq 2] ++ after_uplink ++ [OTimer TIMER_RX1; OIrq 1; OTimer TIMER_RX2; OIrq 1])
  (fun w tr w' => timelyb nothing tr && (length (filter asks_radio (all_evs tr)) =? 23)%nat && (length (filter starts_radio (all_evs tr)) =? 6)%nat).
Proof. show_run. Qed.
(** uwan_init draws a random number from a radio that is sending. *)
Theorem C100_init_refuted : ~ (forall E ops tr w, env_ok E -> Forall op_wf ops -> exec E world0 ops tr w -> timely tr ->
  forall a o v es b, tr = a ++ (o, v, es) :: b -> filter asks_radio es <> [] -> due_radio (air_op (air_of a) o) = None).
Proof.
  intro C. assert (R : run_of (demo [] []) [] (abp 0 7 ++ [OSend 1 [7] false; OInit EU868]) (fun w tr w' => timelyb nothing tr &&
    match rev tr with (o, v, es) :: a => negb (is_nil (filter asks_radio es)) && match due_radio (air_op (air_of (rev a)) o) with None => false | Some _ => true end | [] => false end)) by show_run.
  destruct R as (tr & w' & HE & _ & Hw & Hx & Q). apply andb_prop in Q as [T Q]. apply timelyb_ok in T. change (after (demo [] []) []) with world0 in Hx.
  unfold entry in *. destruct (rev tr) as [|[[o v] es] a] eqn:Rv; [discriminate Q|]. apply andb_prop in Q as [N Q]. assert (Etr : tr = rev a ++ [(o, v, es)]) by (rewrite <- (rev_involutive tr), Rv; reflexivity).
  rewrite (C _ _ _ _ HE Hw Hx T (rev a) o v es [] Etr) in Q; [discriminate Q|]. intro Z. rewrite Z in N. discriminate N.
Qed.
Print Assumptions C100_init_refuted.
