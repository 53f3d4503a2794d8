(** Prop_Live.v -- every transaction completes: C33. *)
From Verif Require Import LWin2 Prop_Join Prop_Down.

(** what is owed in each phase of an orderly run *)
Definition waiting (p : phase) (x : due) : Prop :=
  match p with
  | P_off | P_idle => x = nothing
  | P_tx => x = Mk_due false false (Some Op_tx)
  | P_rx1 => x = Mk_due true true None \/ x = Mk_due false true (Some Op_rx)
  | P_rx2 => x = Mk_due false true None \/ x = Mk_due false false (Some Op_rx)
  end.
(** number of events left until the callback *)
Definition left (p : phase) (x : due) : nat :=
  match p with
  | P_off | P_idle => 0
  | P_tx => 5
  | P_rx1 => if due_t1 x then 4 else 3
  | P_rx2 => if due_t2 x then 2 else 1
  end.

Lemma due_app x a b v : due_step x (a, v, b) = fold_left due_ev (link b) (due_op x a).
Proof. unfold due_step. cbn [fst snd]. symmetry. apply due_link. Qed.

Lemma live_step E w o v es w' x : env_ok E -> Inv (w_st w) -> op_wf o -> step E w o = Some (v, es, w') ->
  waiting (st_phase w) x -> owed x o -> orderly (st_phase w) o ->
  let x' := due_step x (o, v, es) in
  waiting (st_phase w') x' /\
  (is_event o = true -> (left (st_phase w') x' < left (st_phase w) x)%nat /\ tx_frames es = []) /\
  (is_event o = false -> tx_frames es = [] -> left (st_phase w') x' = left (st_phase w) x) /\
  (tx_frames es <> [] -> st_phase w' = P_tx) /\
  (callbacks es = [] -> st_phase w = P_tx \/ st_phase w = P_rx1 \/ st_phase w = P_rx2 -> st_phase w' <> P_idle /\ st_phase w' <> P_off).
Proof.
  intros HE HI Hw H W O Od x'. unfold x'. rewrite due_app. rewrite <- tx_of_link, <- callbacks_link.
  destruct (step_win E w o v es w' HE HI Hw H) as [r A B C|fr pw f A B C D F G K1 K2 _|m ts A B C D F G K _|m A B C D F G K _|m pre rd e t vw A B C D N1 N2 F G J _|t A B C D F|A B N1 N2 N3 N4].
  - subst o. rewrite B, C. cbn in O |- *. subst x. unfold waiting, left in W |- *. cbn.
    destruct (st_phase w); try discriminate W; try (destruct W; discriminate); repeat split; intros; try congruence; try discriminate;
      match goal with H : _ \/ _ |- _ => destruct H as [|[|]]; discriminate end.
  - rewrite C in *. cbn in W. rewrite D, F. cbn. destruct A as [-> |A].
    + subst x. cbn. repeat split; intros; try discriminate; congruence.
    + assert (Q : due_op x o = x) by (destruct o; try reflexivity; discriminate A). rewrite Q.
      assert (Q2 : is_event o = false) by (destruct o; try reflexivity; discriminate A). rewrite Q2. subst x. cbn.
      repeat split; intros; try discriminate; congruence.
  - subst o. rewrite C in *. cbn in W. rewrite F, G. subst x. cbn [due_op due_t1 due_t2 nothing].
    rewrite fold_left_app. cbn [fold_left due_ev set_timer due_t1 due_t2 due_radio]. rewrite due_times, tx_frames_app, map_time_tx.
    cbn. repeat split; intros; try discriminate; try congruence; auto; lia.
  - subst o. rewrite C in *. cbn in W, O. rewrite F, G. cbn. destruct W as [-> | ->]; cbn in O; [contradiction|]. cbn.
    repeat split; intros; try discriminate; try congruence; auto; lia.
  - subst o. rewrite F, link_app, callbacks_app, tx_frames_app, G. destruct (rd_none E w m rd e J) as (Q1 & Q2 & _). rewrite Q1, Q2.
    rewrite D. cbn [waiting]. rewrite fold_left_app. cbn [link filter is_link fold_left due_ev]. 
    assert (Q3 : fold_left due_ev (rx_pre w ++ rd ++ [RSleep]) (due_op x (OIrq m)) = nothing).
    { assert (R : rd = [] \/ exists p, rd = [RRead p]) by (destruct J as [(-> & _)|(-> & _)]; eauto).
      cbn in O. unfold rx_pre. unfold st_phase, ph in C, W. destruct (uw_state (stk w)); try (destruct C; discriminate);
        cbn in W; destruct W as [-> | ->]; cbn in O; try contradiction; destruct R as [-> |(p & ->)]; reflexivity. }
    rewrite Q3. cbn in O. destruct C as [C|C]; rewrite C in *; cbn in W; destruct W as [-> | ->]; cbn in O; try contradiction; cbn;
      repeat split; intros; try discriminate; try congruence; auto; lia.
  - assert (Q : st_phase w' = st_phase w) by (unfold st_phase, ph, stk; rewrite C; reflexivity). rewrite Q, F. subst o. cbn.
    destruct D as [(D & ->)|(D & ->)]; rewrite D in *; cbn in W, O; destruct W as [-> | ->]; cbn in O; try discriminate O; cbn;
      repeat split; intros; try discriminate; try congruence; auto; lia.
  - assert (Q : st_phase w' = st_phase w) by (unfold st_phase; rewrite (sp_state _ _ B); reflexivity). rewrite Q, A. cbn [fold_left].
    destruct (is_event o) eqn:Ev.
    + exfalso. destruct o; try discriminate Ev.
      * destruct (N3 _ eq_refl) as (_ & N). cbn in Od, O. destruct t; cbn in O.
        -- destruct (st_phase w) eqn:P; cbn in W; repeat match goal with H : _ \/ _ |- _ => destruct H end; subst x; try discriminate O; auto.
        -- auto.
      * unfold owed in O. destruct (N2 _ eq_refl) as (_ & [P|[P|[(P & P1)|([P|P] & P1 & P2)]]]); rewrite P in W; cbn in W;
          repeat match goal with H : _ \/ _ |- _ => destruct H end; subst x; cbn [due_radio nothing] in O; try contradiction; try congruence; destruct O; congruence.
    + assert (Q2 : due_op x o = x) by (destruct o; try reflexivity; discriminate Ev). rewrite Q2. cbn.
      repeat split; intros; try discriminate; try congruence; auto;
        match goal with H : _ \/ _ |- _ => destruct H as [|[|]]; congruence end.
Qed.

Lemma live_exec E ops tr w : env_ok E -> Forall op_wf ops -> exec E world0 ops tr w -> fair nothing tr -> in_order P_off tr ->
  waiting (st_phase w) (due_of tr).
Proof.
  intros HE Ho Hx. assert (G : forall w0 x, Inv (w_st w0) -> waiting (st_phase w0) x -> exec E w0 ops tr w -> fair x tr -> in_order (st_phase w0) tr ->
    waiting (st_phase w) (fold_left due_step tr x)).
  { clear - HE Ho. intros w0 x HI W Hx. revert x HI W. induction Hx as [w|w o ops v es w1 tr w2 H Hx IH]; intros x HI W F D; [exact W|].
    inversion Ho as [|? ? W1 W2]; subst. cbn [fair in_order fst] in F, D. destruct F as (F1 & F2). destruct D as (D1 & D2).
    destruct (live_step E w o v es w1 x HE HI W1 H W F1 D1) as (G & _).
    rewrite <- (phase_follow E w o v es w1 (step_win E w o v es w1 HE HI W1 H)) in D2.
    exact (IH W2 _ (step_Inv E w o v es w1 HE HI W1 H) G F2 D2). }
  intros F D. exact (G world0 nothing power_on_Inv eq_refl Hx F D).
Qed.

Definition event_of (t : entry) : bool := is_event (fst (fst t)).
(** an unfinished transaction is left at most four events *)
Lemma live_count E w ops tr w' x : env_ok E -> Inv (w_st w) -> Forall op_wf ops -> exec E w ops tr w' -> fair x tr -> in_order (st_phase w) tr ->
  waiting (st_phase w) x -> (st_phase w = P_tx \/ st_phase w = P_rx1 \/ st_phase w = P_rx2) -> callbacks (all_evs tr) = [] ->
  (length (filter event_of tr) + 1 <= left (st_phase w) x)%nat.
Proof.
  intros HE HI Ho Hx. revert x HI. induction Hx as [w|w o ops v es w1 tr w2 H Hx IH]; intros x HI F D W P C.
  - cbn. destruct P as [P|[P|P]]; rewrite P; cbn; try destruct (due_t1 x); try destruct (due_t2 x); lia.
  - inversion Ho as [|? ? W1 W2]; subst. cbn [fair in_order fst] in F, D. destruct F as (F1 & F2). destruct D as (D1 & D2).
    unfold all_evs in C. cbn [flat_map] in C. change (evs_of (o, v, es)) with es in C. rewrite callbacks_app in C. apply app_eq_nil in C. destruct C as (C1 & C2).
    destruct (live_step E w o v es w1 x HE HI W1 H W F1 D1) as (G1 & G2 & G3 & G4 & G5).
    rewrite <- (phase_follow E w o v es w1 (step_win E w o v es w1 HE HI W1 H)) in D2.
    destruct (G5 C1 P) as (G6 & G7).
    assert (P1 : st_phase w1 = P_tx \/ st_phase w1 = P_rx1 \/ st_phase w1 = P_rx2) by (destruct (st_phase w1); tauto).
    specialize (IH W2 _ (step_Inv E w o v es w1 HE HI W1 H) F2 D2 G1 P1 C2).
    cbn [filter]. unfold event_of at 1. cbn [fst]. destruct (is_event o) eqn:Ev.
    + destruct (G2 eq_refl) as (G8 & _). cbn [length]. lia.
    + assert (T : tx_frames es = []).
      { destruct (tx_frames es) as [|f l] eqn:Et; [reflexivity|]. exfalso. rewrite <- tx_of_link in Et.
        destruct (step_win E w o v es w1 HE HI W1 H) as [r A B C|fr pw f0 A B C K F G K1 K2 _|m ts A B C K F G L _|m A B C K F G L _|m pre rd e t vw A B C K N1 N2 F G J _|t A B C K F|A B N1 N2 N3 N4]; subst; try discriminate Ev.
        - rewrite B in Et. discriminate Et.
        - destruct P as [P|[P|P]]; congruence.
        - rewrite A in Et. discriminate Et. }
      rewrite (G3 eq_refl T) in IH. exact IH.
Qed.

(** While a transaction is open, a running timer or a radio operation is still
    owed -- no deadlock -- as long as RX2 timers fire after RX1 windows. *)
Theorem C33_waiting_partial : forall E ops tr w,
  env_ok E -> Forall op_wf ops -> exec E world0 ops tr w -> fair nothing tr -> in_order P_off tr -> busy w ->
  exists o, op_wf o /\ is_event o = true /\ owed (due_of tr) o /\ orderly (phase_of tr) o.
Proof.
  intros E ops tr w HE Ho Hx F D B. pose proof (live_exec E ops tr w HE Ho Hx F D) as W. rewrite <- (phase_sound E ops tr w HE Ho Hx).
  assert (P : st_phase w = P_tx \/ st_phase w = P_rx1 \/ st_phase w = P_rx2).
  { unfold busy, st_phase, ph in *. destruct (uw_state (stk w)); intuition congruence. }
  assert (I4 : op_wf (OIrq 4)) by (apply op_wfb_ok; reflexivity). assert (I1 : op_wf (OIrq 1)) by (apply op_wfb_ok; reflexivity).
  destruct P as [P|[P|P]]; rewrite P in *; cbn in W.
  - exists (OIrq 4). rewrite W. split; [exact I4|]. split; [reflexivity|]. split; [reflexivity|exact I].
  - destruct W as [W|W]; rewrite W; [exists (OTimer TIMER_RX1); split; [exact I|]|exists (OIrq 1); split; [exact I1|]]; (split; [reflexivity|]); split; cbn; auto.
  - destruct W as [W|W]; rewrite W; [exists (OTimer TIMER_RX2); split; [exact I|]|exists (OIrq 1); split; [exact I1|]]; (split; [reflexivity|]); split; cbn; auto.
Qed.
Print Assumptions C33_waiting_partial.
(** and five events after a transmission its callback has been made. *)
Theorem C33_five_partial : forall E ops0 tr0 w o v es w1 ops tr w2,
  env_ok E -> Forall op_wf (ops0 ++ o :: ops) -> exec E world0 ops0 tr0 w -> step E w o = Some (v, es, w1) -> exec E w1 ops tr w2 ->
  fair nothing (tr0 ++ (o, v, es) :: tr) -> in_order P_off (tr0 ++ (o, v, es) :: tr) ->
  tx_frames es <> [] -> (5 <= length (filter event_of tr))%nat -> callbacks (all_evs tr) <> [].
Proof.
  intros E ops0 tr0 w o v es w1 ops tr w2 HE Ho Hx H Hx2 F D T N C. apply Forall_app in Ho. destruct Ho as (O1 & O2). inversion O2 as [|? ? O3 O4]; subst.
  pose proof (exec_Inv E world0 _ _ _ HE power_on_Inv O1 Hx) as HI.
  assert (F' : forall x a b, fair x (a ++ b) <-> fair x a /\ fair (fold_left due_step a x) b).
  { clear. intros x a b. revert x. induction a as [|t a IH]; intro x; cbn [fair app fold_left]; [tauto|]. rewrite IH. tauto. }
  assert (D' : forall p a b, in_order p (a ++ b) <-> in_order p a /\ in_order (fold_left phase_step a p) b).
  { clear. intros x a b. revert x. induction a as [|t a IH]; intro x; cbn [in_order app fold_left]; [tauto|]. rewrite IH. tauto. }
  rewrite F' in F. rewrite D' in D. destruct F as (F1 & F2). destruct D as (D1 & D2).
  pose proof (live_exec E ops0 tr0 w HE O1 Hx F1 D1) as W. change (fold_left due_step tr0 nothing) with (due_of tr0) in F2.
  change (fold_left phase_step tr0 P_off) with (phase_of tr0) in D2. rewrite <- (phase_sound E ops0 tr0 w HE O1 Hx) in D2.
  cbn [fair in_order fst] in F2, D2. destruct F2 as (F2 & F3). destruct D2 as (D2 & D3).
  destruct (live_step E w o v es w1 _ HE HI O3 H W F2 D2) as (G1 & _ & _ & G4 & _). specialize (G4 T).
  rewrite <- (phase_follow E w o v es w1 (step_win E w o v es w1 HE HI O3 H)) in D3.
  pose proof (live_count E w1 ops tr w2 _ HE (step_Inv E w o v es w1 HE HI O3 H) O4 Hx2 F3 D3 G1 (or_introl G4) C) as L.
  rewrite G4 in L. cbn [left] in L. lia.
Qed.
Print Assumptions C33_five_partial.

(** ** The same for endless runs *)
Record endless (E : env) (ws : nat -> world) (ts : nat -> entry) : Prop := Mk_endless {
  en_start : ws 0%nat = world0;
  en_wf : forall n, op_wf (fst (fst (ts n)));
  en_step : forall n, step E (ws n) (fst (fst (ts n))) = Some (snd (fst (ts n)), snd (ts n), ws (S n))
}.
Definition first (ts : nat -> entry) (n : nat) : list entry := map ts (seq 0 n).
Lemma first_S ts n : first ts (S n) = first ts n ++ [ts n].
Proof. unfold first. rewrite seq_S, map_app. reflexivity. Qed.
Lemma open_step E w o v es w' : env_ok E -> Inv (w_st w) -> op_wf o -> step E w o = Some (v, es, w') ->
  (st_phase w = P_tx \/ st_phase w = P_rx1 \/ st_phase w = P_rx2) -> tx_frames es = [].
Proof.
  intros HE HI Hw H P. rewrite <- tx_of_link.
  destruct (step_win E w o v es w' HE HI Hw H) as [r A B C|fr pw f0 A B C K F G K1 K2 _|m ts A B C K F G L _|m A B C K F G L _|m pre rd e t vw A B C K N1 N2 F G J _|t A B C K F|A B N1 N2 N3 N4].
  - rewrite B. reflexivity.
  - destruct P as [P|[P|P]]; congruence.
  - rewrite G, tx_frames_app, map_time_tx. reflexivity.
  - rewrite G. reflexivity.
  - rewrite F, link_app, tx_frames_app, G. destruct (rd_none E w m rd e J) as (Q1 & _). rewrite Q1. reflexivity.
  - rewrite F. reflexivity.
  - rewrite A. reflexivity.
Qed.
(** If only owed events happen, whenever something is owed an event eventually
    happens, and RX2 timers fire after RX1 windows, every transmission is
    eventually followed by its callback. *)
Theorem C33_partial : forall E ws ts,
  env_ok E -> endless E ws ts ->
  (forall n, owed (due_of (first ts n)) (fst (fst (ts n)))) ->
  (forall n, orderly (phase_of (first ts n)) (fst (fst (ts n)))) ->
  (forall n, due_of (first ts n) <> nothing -> exists m, (n <= m)%nat /\ is_event (fst (fst (ts m))) = true) ->
  forall n, tx_frames (snd (ts n)) <> [] -> exists m, (n < m)%nat /\ callbacks (snd (ts m)) <> [].
Proof.
  intros E ws ts HE [Z0 Hw Hs] Ow Od Lv.
  assert (G : forall n, Inv (w_st (ws n)) /\ st_phase (ws n) = phase_of (first ts n) /\ waiting (st_phase (ws n)) (due_of (first ts n))).
  { induction n as [|n (I1 & I2 & I3)].
    - rewrite Z0. split; [exact power_on_Inv|split; reflexivity].
    - specialize (Hs n). specialize (Hw n). specialize (Ow n). specialize (Od n). rewrite <- I2 in Od.
      destruct (live_step E _ _ _ _ _ _ HE I1 Hw Hs I3 Ow Od) as (G & _).
      split; [exact (step_Inv E _ _ _ _ _ HE I1 Hw Hs)|]. rewrite first_S. unfold phase_of, due_of. rewrite !fold_left_app. cbn [fold_left].
      fold (due_of (first ts n)). change (fold_left phase_step (first ts n) P_off) with (phase_of (first ts n)). rewrite <- I2.
      rewrite (phase_follow E _ _ _ _ _ (step_win E _ _ _ _ _ HE I1 Hw Hs)) in *. destruct (ts n) as [[o v] es]. split; [reflexivity|exact G]. }
  set (bz := fun n => st_phase (ws n) = P_tx \/ st_phase (ws n) = P_rx1 \/ st_phase (ws n) = P_rx2).
  set (lf := fun n => left (st_phase (ws n)) (due_of (first ts n))).
  assert (St : forall n, bz n -> callbacks (snd (ts n)) <> [] \/ bz (S n) /\
     (if is_event (fst (fst (ts n))) then (lf (S n) < lf n)%nat else lf (S n) = lf n)).
  { intros n B. destruct (callbacks (snd (ts n))) as [|c l] eqn:C; [|left; discriminate]. right.
    destruct (G n) as (I1 & I2 & I3). pose proof (Hs n) as H. pose proof (Hw n) as W. pose proof (Ow n) as O. pose proof (Od n) as D. rewrite <- I2 in D.
    destruct (live_step E _ _ _ _ _ _ HE I1 W H I3 O D) as (_ & G2 & G3 & _ & G5).
    assert (T : tx_frames (snd (ts n)) = []) by (apply (open_step E _ _ _ _ _ HE I1 W H B)).
    assert (Q : due_of (first ts (S n)) = due_step (due_of (first ts n)) (fst (fst (ts n)), snd (fst (ts n)), snd (ts n))).
    { rewrite first_S. unfold due_of. rewrite fold_left_app. destruct (ts n) as [[o v] es]. reflexivity. }
    destruct (G5 C B) as (G6 & G7). split; [unfold bz; destruct (st_phase (ws (S n))); tauto|].
    unfold lf. rewrite Q. destruct (is_event (fst (fst (ts n)))); [destruct (G2 eq_refl); assumption|exact (G3 eq_refl T)]. }
  assert (Fin : forall k n, (lf n < k)%nat -> bz n -> exists m, (n <= m)%nat /\ callbacks (snd (ts m)) <> []).
  { induction k as [|k IH]; [lia|]. intros n L B.
    assert (N : due_of (first ts n) <> nothing).
    { destruct (G n) as (_ & _ & I3). intro Q. rewrite Q in I3. unfold waiting, nothing in I3.
      destruct B as [B|[B|B]]; rewrite B in I3; [discriminate I3|destruct I3 as [I3|I3]; discriminate I3|destruct I3 as [I3|I3]; discriminate I3]. }
    destruct (Lv n N) as (m & Le & Ev). remember (m - n)%nat as d eqn:Ed. revert n L B N Le Ed. induction d as [|d IHd]; intros n L B N Le Ed.
    - assert (m = n) by lia. subst m. destruct (St n B) as [C|(B2 & C)]; [exists n; auto|]. rewrite Ev in C.
      destruct (IH (S n)) as (m & M1 & M2); [lia|exact B2|]. exists m. split; [lia|exact M2].
    - destruct (St n B) as [C|(B2 & C)]; [exists n; auto|]. destruct (is_event (fst (fst (ts n)))).
      + destruct (IH (S n)) as (m' & M1 & M2); [lia|exact B2|]. exists m'. split; [lia|exact M2].
      + assert (N' : due_of (first ts (S n)) <> nothing).
        { destruct (G (S n)) as (_ & _ & I3). intro Q. rewrite Q in I3. unfold waiting, nothing in I3.
          destruct B2 as [B2|[B2|B2]]; rewrite B2 in I3; [discriminate I3|destruct I3 as [I3|I3]; discriminate I3|destruct I3 as [I3|I3]; discriminate I3]. }
        destruct (IHd (S n)) as (m' & M1 & M2); [lia|exact B2|exact N'|lia|lia|]. exists m'. split; [lia|exact M2]. }
  intros n T. destruct (G n) as (I1 & I2 & I3). pose proof (Od n) as D. rewrite <- I2 in D.
  destruct (live_step E _ _ _ _ _ _ HE I1 (Hw n) (Hs n) I3 (Ow n) D) as (_ & _ & _ & G4 & _).
  destruct (Fin (S (lf (S n))) (S n)) as (m & M1 & M2); [lia|left; exact (G4 T)|]. exists m. split; [lia|exact M2].
Qed.
Print Assumptions C33_partial.

(** *** instances *)
Definition owedb (x : due) (o : op) : bool :=
  match o with
  | OInit _ => negb (due_t1 x) && negb (due_t2 x) && match due_radio x with None => true | _ => false end
  | OTimer TIMER_RX1 => due_t1 x
  | OTimer TIMER_RX2 => due_t2 x
  | OIrq m => match due_radio x with
              | Some Op_tx => Z.testbit m 2
              | Some Op_rx => Z.testbit m 0 || Z.testbit m 1
              | None => false
              end
  | _ => true
  end.
Lemma owedb_ok x o : owedb x o = true -> owed x o.
Proof.
  destruct o; cbn -[Z.testbit]; auto.
  - destruct x as [[] [] [|]]; cbn; try discriminate. reflexivity.
  - destruct t; auto.
  - destruct (due_radio x) as [[]|]; [auto| |discriminate]. intro H. apply orb_prop in H. exact H.
Qed.
Fixpoint fairb (x : due) (tr : list entry) : bool :=
  match tr with [] => true | t :: r => owedb x (fst (fst t)) && fairb (due_step x t) r end.
Lemma fairb_ok tr : forall x, fairb x tr = true -> fair x tr.
Proof. induction tr as [|t tr IH]; intros x H; [exact I|]. cbn in H. apply andb_prop in H. destruct H. split; [apply owedb_ok|apply IH]; assumption. Qed.
Definition orderlyb (p : phase) (o : op) : bool :=
  match o with OTimer TIMER_RX2 => match p with P_rx2 => true | _ => false end | _ => true end.
Lemma orderlyb_ok p o : orderlyb p o = true -> orderly p o.
Proof. destruct o; cbn; auto. destruct t; auto. destruct p; auto; discriminate. Qed.
Fixpoint in_orderb (p : phase) (tr : list entry) : bool :=
  match tr with [] => true | t :: r => orderlyb p (fst (fst t)) && in_orderb (phase_step p t) r end.
Lemma in_orderb_ok tr : forall p, in_orderb p tr = true -> in_order p tr.
Proof. induction tr as [|t tr IH]; intros x H; [exact I|]. cbn -[phase_step] in H. apply andb_prop in H. destruct H. split; [apply orderlyb_ok|apply IH]; assumption. Qed.

(** two unanswered uplinks, the second one in its second window *)
Example C33_waiting_case : run_of (demo [] []) []
  (abp 0 7 ++ [OSend 1 [7] true; OIrq 4; OTimer TIMER_RX1; OIrq 1; OTimer TIMER_RX2; OIrq 1; OSend 1 [8] true; OIrq 4; OTimer TIMER_RX1; OIrq 1; OTimer TIMER_RX2])
  (fun w tr w' => fairb nothing tr && in_orderb P_off tr && match uw_state (stk w') with RX2 => true | _ => false end).
Proof. show_run. Qed.
Example C33_five_case : run_of (demo [] []) []
  (abp 0 7 ++ [OSend 1 [7] true; OIrq 4; OTimer TIMER_RX1; OIrq 1; OTimer TIMER_RX2; OIrq 3])
  (fun w tr w' => fairb nothing tr && in_orderb P_off tr && (length (filter event_of (skipn 3 tr)) =? 5)%nat &&
     negb (is_nil (tx_frames (snd (nth 2 tr (OJoin, VUnit, []))))) && negb (is_nil (callbacks (all_evs tr)))).
Proof. show_run. Qed.

(** The RX2 timer firing before the radio reports the end of the RX1 window is
    ignored and never comes again: the stack waits for ever. *)
Definition stuck_ops : list op := abp 0 7 ++ [OSend 1 [7] true; OIrq 4; OTimer TIMER_RX1; OTimer TIMER_RX2; OIrq 1].
Lemma stuck_for_ever E w ops tr w' : env_ok E -> Inv (w_st w) -> Forall op_wf ops -> exec E w ops tr w' -> fair nothing tr ->
  st_phase w = P_rx2 -> Forall (fun o => forall r, o <> OInit r) ops -> callbacks (all_evs tr) = [] /\ tx_frames (all_evs tr) = [] /\ st_phase w' = P_rx2.
Proof.
  intros HE HI Ho Hx. induction Hx as [w|w o ops v es w1 tr w2 H Hx IH]; intros F P N; [auto|].
  inversion Ho as [|? ? W1 W2]; subst. inversion N as [|? ? M1 M2]; subst. cbn [fair fst] in F. destruct F as (F1 & F2).
  assert (K : link es = [] /\ st_phase w1 = P_rx2 /\ is_event o = false).
  { destruct (step_win E w o v es w1 HE HI W1 H) as [r A B C|fr pw f0 A B C K F G K1 K2 _|m ts A B C K F G L _|m A B C K F G L _|m pre rd e t vw A B C K N1 N2 F G J _|t A B C K F|A B N1 N2 N3 N4]; try congruence.
    - subst o. contradiction F1.
    - subst o. destruct t; discriminate F1.
    - split; [exact A|]. split; [unfold st_phase in *; rewrite (sp_state _ _ B); exact P|]. destruct o; try reflexivity; [destruct t; discriminate F1|contradiction F1]. }
  destruct K as (K1 & K2 & K3).
  assert (Q : due_step nothing (o, v, es) = nothing) by (rewrite due_app, K1; destruct o; try reflexivity; discriminate K3).
  rewrite Q in F2. destruct (IH (step_Inv E w o v es w1 HE HI W1 H) W2 F2 K2 M2) as (J1 & J2 & J3).
  unfold all_evs in *. cbn [flat_map]. change (evs_of (o, v, es)) with es. rewrite callbacks_app, tx_frames_app, J1, J2.
  rewrite <- callbacks_link, <- tx_of_link, K1. auto.
Qed.
Theorem C33_refuted : exists E ops tr w, env_ok E /\ Forall op_wf ops /\ exec E world0 ops tr w /\ fair nothing tr /\
  number (tx_frames (all_evs tr)) = 1 /\ callbacks (all_evs tr) = [] /\ due_of tr = nothing /\ busy w /\
  forall ops' tr' w', Forall op_wf ops' -> Forall (fun o => forall r, o <> OInit r) ops' -> exec E w ops' tr' w' -> fair (due_of tr) tr' ->
    callbacks (all_evs tr') = [] /\ tx_frames (all_evs tr') = [] /\ busy w'.
Proof.
  assert (R : run_of (demo [] []) [] stuck_ops (fun w tr w' => fairb nothing tr && (number (tx_frames (all_evs tr)) =? 1) && is_nil (callbacks (all_evs tr)) &&
    owedb (due_of tr) (OInit EU868) && match uw_state (stk w') with RX2 => true | _ => false end)) by show_run.
  destruct R as (tr & w & HE & _ & Ho & Hx & F). change (after (demo [] []) []) with world0 in *. ands F.
  exists (demo [] []), stuck_ops, tr, w. apply fairb_ok in F. apply owedb_ok in H0. cbn in H0. apply Z.eqb_eq in H2.
  assert (C : callbacks (all_evs tr) = []) by (destruct (callbacks (all_evs tr)); [reflexivity|discriminate H1]).
  assert (U : uw_state (stk w) = RX2) by (destruct (uw_state (stk w)); congruence).
  assert (B : busy w) by (unfold busy; auto). split; [exact HE|]. split; [exact Ho|]. do 6 (split; [assumption|]).
  intros ops' tr' w' Ho' N Hx' F'. rewrite H0 in F'.
  destruct (stuck_for_ever (demo [] []) w ops' tr' w' HE (exec_Inv _ world0 _ _ _ HE power_on_Inv Ho Hx) Ho' Hx' F') as (J1 & J2 & J3); [unfold st_phase, ph; rewrite U; reflexivity|exact N|].
  split; [exact J1|]. split; [exact J2|]. unfold st_phase, ph, busy in *. destruct (uw_state (stk w')); auto; discriminate J3.
Qed.
Print Assumptions C33_refuted.

(** an endless run meeting the hypotheses: one uplink, then only harmless calls *)
Definition live_ops : list op := abp 0 7 ++ [OSend 1 [7] true; OIrq 4; OTimer TIMER_RX1; OIrq 1; OTimer TIMER_RX2; OIrq 1].
Definition live_op (n : nat) : op := nth n live_ops OIsJoined.
Fixpoint live_w (n : nat) : world :=
  match n with
  | O => world0
  | S k => match step (demo [] []) (live_w k) (live_op k) with Some (_, _, w) => w | None => live_w k end
  end.
Definition live_t (n : nat) : entry :=
  match step (demo [] []) (live_w n) (live_op n) with Some (v, es, _) => (live_op n, v, es) | None => (live_op n, VUnit, []) end.
Lemma live_end : step (demo [] []) (live_w 8) OIsJoined = Some (VBool true, [], live_w 8).
Proof. vm_compute. reflexivity. Qed.
Lemma live_tail n : live_w (8 + n) = live_w 8 /\ live_t (8 + n) = (OIsJoined, VBool true, []) /\ due_of (first live_t (8 + n)) = nothing.
Proof.
  induction n as [|n (IH1 & IH2 & IH3)].
  - split; [reflexivity|]. split; vm_compute; reflexivity.
  - assert (Q : live_w (8 + S n) = live_w 8).
    { replace (8 + S n)%nat with (S (8 + n)) by lia. cbn [live_w]. rewrite IH1.
      replace (live_op (8 + n)) with OIsJoined by (unfold live_op; rewrite nth_overflow; [reflexivity|cbn; lia]). rewrite live_end. reflexivity. }
    split; [exact Q|]. split.
    + unfold live_t. rewrite Q. replace (live_op (8 + S n)) with OIsJoined by (unfold live_op; rewrite nth_overflow; [reflexivity|cbn; lia]). rewrite live_end. reflexivity.
    + replace (8 + S n)%nat with (S (8 + n)) by lia. rewrite first_S. unfold due_of. rewrite fold_left_app.
      change (fold_left due_step (first live_t (8 + n)) nothing) with (due_of (first live_t (8 + n))). rewrite IH3, IH2. reflexivity.
Qed.
Lemma live_split (P : nat -> Prop) : (forall n, In n (seq 0 8) -> P n) -> (forall n, P (8 + n)%nat) -> forall n, P n.
Proof. intros A B n. destruct (Nat.lt_ge_cases n 8) as [L|L]; [apply A, in_seq; lia|]. replace n with (8 + (n - 8))%nat by lia. apply B. Qed.
Example C33_partial_case : endless (demo [] []) live_w live_t /\
  (forall n, owed (due_of (first live_t n)) (fst (fst (live_t n)))) /\
  (forall n, orderly (phase_of (first live_t n)) (fst (fst (live_t n)))) /\
  (forall n, due_of (first live_t n) <> nothing -> exists m, (n <= m)%nat /\ is_event (fst (fst (live_t m))) = true) /\
  tx_frames (snd (live_t 2)) <> [].
Proof.
  split; [constructor|split; [|split; [|split]]].
  - reflexivity.
  - apply live_split.
    + intros n Hn. apply op_wfb_ok. assert (F : forallb (fun n => op_wfb (fst (fst (live_t n)))) (seq 0 8) = true) by (vm_compute; reflexivity).
      rewrite forallb_forall in F. exact (F n Hn).
    + intro n. destruct (live_tail n) as (_ & -> & _). exact I.
  - apply live_split.
    + intros n Hn. assert (F : forallb (fun n => match step (demo [] []) (live_w n) (live_op n) with Some _ => true | None => false end) (seq 0 8) = true) by (vm_compute; reflexivity).
      rewrite forallb_forall in F. specialize (F n Hn). cbn [live_w]. unfold live_t.
      destruct (step (demo [] []) (live_w n) (live_op n)) as [[[v es] w]|] eqn:H; [exact H|discriminate F].
    + intro n. destruct (live_tail n) as (Q1 & Q2 & _). destruct (live_tail (S n)) as (Q3 & _). replace (8 + S n)%nat with (S (8 + n)) in Q3 by lia.
      rewrite Q1, Q2, Q3. exact live_end.
  - apply live_split.
    + intros n Hn. apply owedb_ok. assert (F : forallb (fun n => owedb (due_of (first live_t n)) (fst (fst (live_t n)))) (seq 0 8) = true) by (vm_compute; reflexivity).
      rewrite forallb_forall in F. exact (F n Hn).
    + intro n. destruct (live_tail n) as (_ & -> & _). exact I.
  - apply live_split.
    + intros n Hn. apply orderlyb_ok. assert (F : forallb (fun n => orderlyb (phase_of (first live_t n)) (fst (fst (live_t n)))) (seq 0 8) = true) by (vm_compute; reflexivity).
      rewrite forallb_forall in F. exact (F n Hn).
    + intro n. destruct (live_tail n) as (_ & -> & _). exact I.
  - apply (live_split (fun n => due_of (first live_t n) <> nothing -> exists m, (n <= m)%nat /\ is_event (fst (fst (live_t m))) = true)).
    + intros n Hn _. exists 7%nat. apply in_seq in Hn. split; [lia|vm_compute; reflexivity].
    + intros n N. destruct (live_tail n) as (_ & _ & Q). contradiction.
  - vm_compute. discriminate.
Qed.
