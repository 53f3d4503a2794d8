(** Prop_Reent.v -- what the application may call from inside its handlers (C90) *)
From Verif Require Import SpecDown SpecReent LReent PStrict Demo Prop_Down.
Open Scope m_scope.

(** *** C90: API calls made inside downlink_callback behave as if they were made right after
    the interrupt had returned. *)
Theorem C90_callback E R w m es w2 : env_ok E -> reachable E w -> callback_only R ->
  irq_re E R w m = Some (es, w2) <->
  exists es1 w1 tr, step E w (OIrq m) = Some (VUnit, es1, w1) /\ exec E w1 (then_calls R es1 w1) tr w2 /\ es = es1 ++ all_evs tr.
Proof.
  intros HE Hr HR. pose proof (reach_Inv E w HE Hr) as HI. pose proof (tk_frame _ (iv_stk _ HI)) as L.
  unfold irq_re, step. cbn [call]. unfold as_unit.
  destruct w as [s h]. cbn [w_hist w_st] in *.
  assert (St : forall a s1 es1, evt_handler E m h s = Ok (a, s1, es1) -> (evt_handler E m ;;; ret VUnit) h s = Ok (VUnit, s1, es1)).
  { intros a s1 es1 X. unfold bind, ret. rewrite X, app_nil_r. reflexivity. }
  destruct (handler_split E R m h s HR L) as [(Eq & Hn)|(Eq & Hn)]; rewrite Eq; clear Eq.
  - destruct (evt_handler E m h s) as [[[[] s1] es1]|] eqn:Ex.
    + rewrite (St _ _ _ eq_refl). specialize (Hn _ _ _ eq_refl). split.
      * intro X. injection X as <- <-. exists es1. eexists. exists []. split; [reflexivity|]. unfold then_calls. rewrite Hn.
        split; [apply exec_nil|]. cbn. rewrite app_nil_r. reflexivity.
      * intros (es2 & w1 & tr & X & Y & ->). injection X as <- <-. unfold then_calls in Y. rewrite Hn in Y. inversion Y. subst.
        cbn. rewrite app_nil_r. reflexivity.
    + split; [discriminate|]. intros (es2 & w1 & tr & X & _). unfold bind in X. rewrite Ex in X. discriminate X.
  - destruct (evt_handler E m h s) as [[[[] s1] es1]|] eqn:Ex.
    + rewrite (St _ _ _ eq_refl), (bind_ok _ _ _ _ _ _ _ Ex). specialize (Hn _ _ _ eq_refl).
      unfold react. set (h1 := h ++ es1). set (w1 := Mk_world s1 h1).
      assert (Tc : then_calls R es1 w1 = R h1) by (unfold then_calls; destruct (callbacks es1); [congruence|reflexivity]).
      split.
      * destruct (calls E (R h1) h1 s1) as [[[[] s2] e2]|] eqn:Ec; [|discriminate]. cbn [addev]. intro X. injection X as <- <-.
        apply calls_exec in Ec as (tr & Hx & ->). exists es1, w1, tr. split; [reflexivity|]. rewrite Tc. split; [|reflexivity].
        rewrite app_assoc. exact Hx.
      * intros (es2 & w1' & tr & X & Y & ->). injection X as <- <-. fold w1 in Y. rewrite Tc in Y.
        destruct w2 as [s2 h2]. assert (Hh : h2 = h1 ++ all_evs tr) by (change h2 with (w_hist (Mk_world s2 h2)); rewrite (exec_hist _ _ _ _ _ Y); reflexivity).
        subst h2. rewrite (proj2 (calls_exec E (R h1) h1 s1 s2 (all_evs tr)) (ex_intro _ tr (conj Y eq_refl))). cbn [addev]. unfold h1. rewrite app_assoc. reflexivity.
    + unfold bind. rewrite Ex. split; [discriminate|]. intros (es2 & w1 & tr & X & _). discriminate X.
Qed.
Print Assumptions C90_callback.

(** *** C90: calls that read or change settings, or queue a request, made inside the functions
    given to uwan_mac_set_handlers leave the packet being handled alone: apart from those
    handlers the interrupt calls the same functions with the same arguments, the callback
    among them, and leaves the same session. What the callback then calls runs from there. *)
Theorem C90_settings_partial E R w m : env_ok E -> e_strict_shl E = false -> reachable E w -> settings_only R ->
  match step E w (OIrq m) with
  | None => irq_re E R w m = None
  | Some (v, es1, w1) => exists es' w', outside es' = outside es1 /\ same_link w1 w' /\ w_hist w' = w_hist w ++ es' /\
      (callbacks es1 <> [] -> exists es0 x t u, es' = es0 ++ [CbDown x t u]) /\
      forall es w2, irq_re E R w m = Some (es, w2) <->
        exists tr, exec E w' (then_calls R es1 w') tr w2 /\ es = es' ++ all_evs tr
  end.
Proof.
  intros HE Hns Hr HR. pose proof (reach_Inv E w HE Hr) as HI.
  unfold irq_re, step. cbn [call]. unfold as_unit. destruct w as [s h]. cbn [w_hist w_st] in *.
  assert (Kl : forall t t' k k', kept t t' -> same_link (Mk_world t k) (Mk_world t' k')) by (intros t t' k k' []; constructor; assumption).
  destruct (handler_rel E R HE Hns HR m h s HI) as [(Hrel & Hn)|(pre & Eq & Hrel & He & Hn)].
  - destruct (evt_handler E m h s) as [[[[] s1] es1]|] eqn:Ex; unfold bind; rewrite Ex.
    + cbn [ret]. destruct (evt_handler_re E R m h s) as [[[[] s2] es2]|]; [|contradiction]. destruct Hrel as (_ & K & Q).
      rewrite app_nil_r. exists es2, (Mk_world s2 (h ++ es2)). split; [exact Q|]. split; [apply Kl; exact K|]. split; [reflexivity|].
      split; [intro X; elim X; exact (Hn _ _ _ eq_refl)|]. intros es w2. unfold then_calls. rewrite (Hn _ _ _ eq_refl). split.
      * intro X. injection X as <- <-. exists []. split; [apply exec_nil|]. cbn. rewrite app_nil_r. reflexivity.
      * intros (tr & X & ->). inversion X. subst. cbn. rewrite app_nil_r. reflexivity.
    + destruct (evt_handler_re E R m h s) as [[[[] s2] es2]|]; [contradiction|reflexivity].
  - rewrite Eq. clear Eq. destruct (evt_handler E m h s) as [[[[] s1] es1]|] eqn:Ex.
    + unfold bind at 1. rewrite Ex. cbn [ret]. rewrite app_nil_r.
      destruct (pre h s) as [[[[] s2] es2]|] eqn:Ep; [|contradiction]. destruct Hrel as (_ & K & Q).
      exists es2, (Mk_world s2 (h ++ es2)). split; [exact Q|]. split; [apply Kl; exact K|]. split; [reflexivity|].
      split; [intros _; exact (He _ _ _ _ _ Ep)|]. intros es w2. rewrite (bind_ok _ _ _ _ _ _ _ Ep). unfold react. set (h1 := h ++ es2).
      assert (Tc : then_calls R es1 (Mk_world s2 h1) = R h1) by (unfold then_calls; specialize (Hn _ _ _ eq_refl); destruct (callbacks es1); [congruence|reflexivity]).
      rewrite Tc. split.
      * destruct (calls E (R h1) h1 s2) as [[[[] s3] e2]|] eqn:Ec; [|discriminate]. cbn [addev]. intro X. injection X as <- <-.
        apply calls_exec in Ec as (tr & Hx & ->). exists tr. split; [|reflexivity]. rewrite app_assoc. exact Hx.
      * intros (tr & Y & ->). destruct w2 as [s3 h2].
        assert (Hh : h2 = h1 ++ all_evs tr) by (change h2 with (w_hist (Mk_world s3 h2)); rewrite (exec_hist _ _ _ _ _ Y); reflexivity).
        subst h2. rewrite (proj2 (calls_exec E (R h1) h1 s2 s3 (all_evs tr)) (ex_intro _ tr (conj Y eq_refl))).
        cbn [addev]. unfold h1. rewrite app_assoc. reflexivity.
    + unfold bind. rewrite Ex. destruct (pre h s) as [[[[] s2] es2]|]; [contradiction|reflexivity].
Qed.
Print Assumptions C90_settings_partial.
(** so the callback sees the same result, packet type and payload *)
Theorem C90_settings_callback_partial E R w m v es1 w1 es w2 : env_ok E -> e_strict_shl E = false -> reachable E w -> settings_only R ->
  (forall h x t u, R (h ++ [CbDown x t u]) = []) ->
  step E w (OIrq m) = Some (v, es1, w1) -> irq_re E R w m = Some (es, w2) -> callbacks es = callbacks es1 /\ same_link w1 w2.
Proof.
  intros HE Hns Hr HR Hq Hs Hi. pose proof (C90_settings_partial E R w m HE Hns Hr HR) as T. rewrite Hs in T.
  destruct T as (es' & w' & Ho & Hl & Hh & He & T). destruct (proj1 (T es w2) Hi) as (tr & Hx & Q). rewrite Q. clear Q Hi T.
  assert (Hc : callbacks es' = callbacks es1) by (rewrite <- outside_cb, Ho, outside_cb; reflexivity).
  assert (Hn : then_calls R es1 w' = []).
  { unfold then_calls. destruct (callbacks es1); [reflexivity|]. destruct He as (es0 & x & t & u & ->); [discriminate|]. rewrite Hh, app_assoc. apply Hq. }
  rewrite Hn in Hx. inversion Hx. subst. cbn [all_evs flat_map]. rewrite app_nil_r. auto.
Qed.
Print Assumptions C90_settings_callback_partial.

(** Cases: the network's LinkCheckAns is followed by a DevStatusReq and a payload on port 5.
    The link_check_result handler changes the data rate and asks for the time, and the
    callback sends an uplink. *)
Definition chatty : list op := abp 0 7 ++ [OSetHandlers (Some (Mk_mac_callbacks true true true true))] ++ after_uplink.
Definition answer : list Z := dl 8 true 0 [2; 17; 3; 6] (Some (5, [1; 2; 3])).
Definition in_link_check (ops : list op) (h : list ev) : list op :=
  match rev h with MLinkCheck _ _ :: _ => ops | _ => [] end.
Definition in_callback (ops : list op) (h : list ev) : list op :=
  match rev h with CbDown _ _ _ :: _ => ops | _ => [] end.
Definition E90 : env := demo [1; 2; 3; 4] [(answer, 9)].
Lemma w90_reach : reachable E90 (after E90 chatty).
Proof. apply after_reach. vm_compute. reflexivity. Qed.
Lemma rev_end (h : list ev) e : rev (h ++ [e]) = e :: rev h.
Proof. apply rev_app_distr. Qed.
Lemma in_callback_only ops : callback_only (in_callback ops).
Proof. intros h e He. unfold in_callback. rewrite rev_end. destruct e; try reflexivity. elim (He e mtype p eq_refl). Qed.
Lemma in_link_check_settings ops : setting_ops ops -> settings_only (in_link_check ops).
Proof. intros Ho h e He. unfold in_link_check. rewrite rev_end. destruct e; try constructor. exact Ho. Qed.

Definition idleb (w : world) : bool := match uw_state (stk w) with IDLE => true | _ => false end.
Definition irq_case (R : reaction) (P : list ev -> list ev -> world -> bool) : Prop :=
  env_ok E90 /\ reachable E90 (after E90 chatty) /\ exists v es1 w1 es w2,
    step E90 (after E90 chatty) (OIrq 2) = Some (v, es1, w1) /\ irq_re E90 R (after E90 chatty) 2 = Some (es, w2) /\ P es1 es w2 = true.
Lemma irq_case_ok R P : match step E90 (after E90 chatty) (OIrq 2), irq_re E90 R (after E90 chatty) 2 with
    | Some (_, es1, _), Some (es, w2) => P es1 es w2 | _, _ => false end = true -> irq_case R P.
Proof.
  intro H. split; [apply demo_ok|]. split; [apply w90_reach|].
  destruct (step E90 (after E90 chatty) (OIrq 2)) as [[[v es1] w1]|]; [|discriminate H].
  destruct (irq_re E90 R (after E90 chatty) 2) as [[es w2]|]; [|discriminate H].
  exists v, es1, w1, es, w2. repeat split. exact H.
Qed.
Ltac irq_case := apply irq_case_ok; vm_compute; reflexivity.

Example C90_callback_case : callback_only (in_callback [OSend 2 [9] false]) /\
  irq_case (in_callback [OSend 2 [9] false]) (fun es1 es w2 =>
    match callbacks es1, callbacks es, tx_frames es1, tx_frames es with
    | [(ERR_NO, 5, _)], [(ERR_NO, 5, _)], [], [f] => negb (idleb w2)
    | _, _, _, _ => false
    end).
Proof. split; [apply in_callback_only|]. irq_case. Qed.
Example C90_settings_case : settings_only (in_link_check [OSetDr 3; ODevTimeReq; OEnableChannel 1 false]) /\
  irq_case (in_link_check [OSetDr 3; ODevTimeReq; OEnableChannel 1 false]) (fun es1 es w2 =>
    match callbacks es with
    | [(ERR_NO, 5, v)] => match v_data v with Some [1; 2; 3] => (default_dr (s_stk (w_st w2)) =? 3) && idleb w2 | _ => false end
    | _ => false
    end).
Proof.
  split; [|irq_case]. apply in_link_check_settings. repeat constructor; unfold is_u8; lia.
Qed.

(** *** The claim without the restriction, a handler sending an uplink: "the callback still
    gets the packet". It does not: the uplink is built in the buffer that holds the packet,
    so the packet's check fails, and the MAC commands behind the one being handled are read
    from the uplink. *)
Theorem C90_send_refuted : ~ (forall E R w m v es1 w1 es w2, env_ok E -> e_strict_shl E = false -> reachable E w ->
  (forall h, Forall op_wf (R h)) -> step E w (OIrq m) = Some (v, es1, w1) -> irq_re E R w m = Some (es, w2) ->
  incl (callbacks es1) (callbacks es)).
Proof.
  intro C. destruct (step E90 (after E90 chatty) (OIrq 2)) as [[[v es1] w1]|] eqn:E1; [|vm_compute in E1; discriminate E1].
  destruct (irq_re E90 (in_link_check [OSend 1 [9] false]) (after E90 chatty) 2) as [[es w2]|] eqn:E2; [|vm_compute in E2; discriminate E2].
  assert (H : incl (callbacks es1) (callbacks es)).
  { apply (C E90 (in_link_check [OSend 1 [9] false]) (after E90 chatty) 2 v es1 w1 es w2); try assumption; [apply demo_ok|reflexivity|apply w90_reach|].
    intro h. unfold in_link_check. destruct (rev h) as [|[] ?]; try constructor; [|constructor]. apply op_wfb_ok. reflexivity. }
  vm_compute in E1, E2. injection E1 as _ <- _. injection E2 as <- _. cbn [callbacks] in H.
  specialize (H _ (or_introl eq_refl)). destruct H as [H|[]]. discriminate H.
Qed.
Print Assumptions C90_send_refuted.
(** *** And a join request made in a handler is transmitted but its answer will not be taken
    for one: src/stack.c:438 clears the flag that uwan_join has set. *)
Theorem C90_join_refuted : ~ (forall E R w m es w2 f, env_ok E -> e_strict_shl E = false -> reachable E w ->
  (forall h, Forall op_wf (R h)) -> irq_re E R w m = Some (es, w2) -> tx_frames es = [f] -> get f 0 = 0 -> joining w2 = true).
Proof.
  intro C.
  destruct (irq_re E90 (in_link_check [OJoin]) (after E90 chatty) 2) as [[es w2]|] eqn:E2; [|vm_compute in E2; discriminate E2].
  destruct (tx_frames es) as [|f [|? ?]] eqn:Et; try (vm_compute in E2; injection E2 as <- _; discriminate Et).
  assert (H : get f 0 = 0 -> joining w2 = true).
  { apply (C E90 (in_link_check [OJoin]) (after E90 chatty) 2 es w2 f); try assumption; [apply demo_ok|reflexivity|apply w90_reach|].
    intro h. unfold in_link_check. destruct (rev h) as [|[] ?]; try constructor; [|constructor]. exact I. }
  vm_compute in E2. injection E2 as <- <-. cbn in Et. injection Et as <-. discriminate (H eq_refl).
Qed.
Print Assumptions C90_join_refuted.
