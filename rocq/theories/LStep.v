(** LStep.v -- one call of the transition system, case by case, for every
    environment (proof infrastructure for the property files). *)
From Verif Require Export PStrict.

Lemma step_call E w o v es w' : step E w o = Some (v, es, w') ->
  call E o (w_hist w) (w_st w) = Ok (v, w_st w', es) /\ w_hist w' = w_hist w ++ es.
Proof.
  unfold step. destruct (call E o (w_hist w) (w_st w)) as [[[v1 s1] es1]|]; [|discriminate].
  intro H. injection H as <- <- <-. split; reflexivity.
Qed.
Lemma call_step E w o v es s' : call E o (w_hist w) (w_st w) = Ok (v, s', es) ->
  step E w o = Some (v, es, Mk_world s' (w_hist w ++ es)).
Proof. unfold step. intros ->. reflexivity. Qed.

Lemma as_err_inv (m : C err) h s v s' es : as_err m h s = Ok (v, s', es) ->
  exists e, v = VErr e /\ m h s = Ok (e, s', es).
Proof.
  unfold as_err, bind. destruct (m h s) as [[[e s1] es1]|]; [|discriminate]. cbn [addev ret].
  intro H. injection H as <- <- <-. exists e. rewrite app_nil_r. split; reflexivity.
Qed.
Lemma as_unit_inv (m : C unit) h s v s' es : as_unit m h s = Ok (v, s', es) ->
  v = VUnit /\ m h s = Ok (tt, s', es).
Proof.
  unfold as_unit, bind. destruct (m h s) as [[[[] s1] es1]|]; [|discriminate]. cbn [addev ret].
  intro H. injection H as <- <- <-. rewrite app_nil_r. split; reflexivity.
Qed.

Lemma step_send E w p d c v es w' : env_ok E -> Inv (w_st w) -> op_wf (OSend p d c) ->
  step E w (OSend p d c) = Some (v, es, w') ->
  exists e, v = VErr e /\ send_cases E p d c (w_hist w) (w_st w) (Ok (e, w_st w', es)).
Proof.
  intros HE HI (W1 & W2 & W3) H. apply step_call in H. destruct H as [H _]. cbn [call] in H.
  apply as_err_inv in H. destruct H as (e & -> & H). exists e. split; [reflexivity|]. rewrite <- H.
  apply send_cases_ok; assumption.
Qed.
Lemma step_send_total E w p d c : env_ok E -> Inv (w_st w) -> op_wf (OSend p d c) ->
  exists e es w', step E w (OSend p d c) = Some (VErr e, es, w').
Proof.
  intros HE HI (W1 & W2 & W3). pose proof (send_cases_ok E p d c (w_hist w) (w_st w) HE HI W1 W3) as H.
  assert (Hx : exists e s' es, uwan_send_frame E p d (len d) c (w_hist w) (w_st w) = Ok (e, s', es))
    by (destruct H; eauto).
  destruct Hx as (e & s' & es & Hx). exists e, es, (Mk_world s' (w_hist w ++ es)). apply call_step.
  cbn [call]. unfold as_err. erewrite bind_ok; [|exact Hx]. cbn [ret addev]. rewrite app_nil_r. reflexivity.
Qed.
Lemma step_join E w v es w' : env_ok E -> Inv (w_st w) -> step E w OJoin = Some (v, es, w') ->
  exists e, v = VErr e /\ join_cases E (w_hist w) (w_st w) (Ok (e, w_st w', es)).
Proof.
  intros HE HI H. apply step_call in H. destruct H as [H _]. cbn [call] in H.
  apply as_err_inv in H. destruct H as (e & -> & H). exists e. split; [reflexivity|]. rewrite <- H.
  apply join_cases_ok; assumption.
Qed.
Lemma step_irq E w m v es w' : env_ok E -> Inv (w_st w) -> step E w (OIrq m) = Some (v, es, w') ->
  v = VUnit /\ irq_cases (relax E) m (w_hist w) (w_st w) (Ok (tt, w_st w', es)).
Proof.
  intros HE HI H. apply step_relax, step_call in H. destruct H as [H _]. cbn [call] in H.
  apply as_unit_inv in H. destruct H as (-> & H). split; [reflexivity|]. rewrite <- H.
  apply irq_ok; [apply relax_ok; exact HE|reflexivity|exact HI].
Qed.
Lemma step_timer E w t v es w' : Inv (w_st w) -> step E w (OTimer t) = Some (v, es, w') ->
  v = VUnit /\ w_st w' = w_st w /\ es = timer_evs t (w_st w).
Proof.
  intros HI H. apply step_call in H. destruct H as [H _]. cbn [call] in H.
  apply as_unit_inv in H. destruct H as (-> & H). rewrite timer_ok in H by exact HI.
  injection H as <- <-. auto.
Qed.
Lemma step_init E w r v es w' : Inv (w_st w) -> step E w (OInit r) = Some (v, es, w') ->
  v = VUnit /\ w_st w' = init_state r (w_st w) /\ es = init_evs E (w_hist w).
Proof.
  intros HI H. apply step_call in H. destruct H as [H _]. cbn [call] in H.
  apply as_unit_inv in H. destruct H as (-> & H). rewrite init_ok in H by exact HI.
  injection H as <- <-. auto.
Qed.
Lemma step_simple E w o v es w' v1 s1 : Inv (w_st w) -> op_wf o -> simple o (w_st w) = Some (v1, s1) ->
  step E w o = Some (v, es, w') -> v = v1 /\ w_st w' = s1 /\ es = [].
Proof.
  intros HI Hw Hs H. apply step_call in H. destruct H as [H _].
  rewrite (simple_ok E o v1 s1 _ _ HI Hw Hs) in H. injection H as <- <- <-. auto.
Qed.
Lemma step_cs_req E w a v es w' : env_ok E -> Inv (w_st w) -> step E w (OCsSendReq a) = Some (v, es, w') ->
  exists e, v = VErr e /\
    ((cs_callbacks (s_cs (w_st w)) = None /\ w_st w' = w_st w /\ es = [] /\ e <> ERR_NO) \/
     (cs_callbacks (s_cs (w_st w)) <> None /\ exists es1, es = KUnixtime (e_unixtime E (w_hist w)) :: es1 /\
      send_cases E CS_PORT (cs_req_payload E a (w_hist w) (w_st w)) false
        (w_hist w ++ [KUnixtime (e_unixtime E (w_hist w))]) (cs_req_st (w_st w)) (Ok (e, w_st w', es1)))).
Proof.
  intros HE HI H. apply step_call in H. destruct H as [H _]. cbn [call] in H.
  apply as_err_inv in H. destruct H as (e & -> & H). exists e. split; [reflexivity|].
  destruct (cs_callbacks (s_cs (w_st w))) as [c|] eqn:Ec.
  - right. split; [discriminate|]. rewrite cs_send_req_ok in H by (try assumption; congruence).
    destruct (cs_req_payload_ok E a (w_hist w) (w_st w) HE HI) as [P1 P2].
    pose proof (send_cases_ok E CS_PORT (cs_req_payload E a (w_hist w) (w_st w)) false
      (w_hist w ++ [KUnixtime (e_unixtime E (w_hist w))]) (cs_req_st (w_st w)) HE (cs_req_Inv _ HI)
      ltac:(cbv; intuition discriminate) P1) as Hc.
    destruct (uwan_send_frame _ _ _ _ _ _ _) as [[[r s'] es1]|k]; [|discriminate].
    cbn [addev app] in H. injection H as <- <- <-. exists es1. split; [reflexivity|exact Hc].
  - left. unfold uwan_clock_sync_send_time_req in H. revert H. msteps. rewrite Ec. cbn [ret]. intro H.
    injection H as <- <- <-. repeat split; auto. discriminate.
Qed.
Lemma step_cs_ans E w v es w' : env_ok E -> Inv (w_st w) -> step E w OCsSendAns = Some (v, es, w') ->
  exists e, v = VErr e /\
    ((ans_pending (s_cs (w_st w)) = false /\ w_st w' = w_st w /\ es = [] /\ e <> ERR_NO) \/
     (ans_pending (s_cs (w_st w)) = true /\
      send_cases E CS_PORT (cs_answer (w_st w)) false (w_hist w) (w_st w) (Ok (e, w_st w', es)))).
Proof.
  intros HE HI H. apply step_call in H. destruct H as [H _]. cbn [call] in H.
  apply as_err_inv in H. destruct H as (e & -> & H). exists e. split; [reflexivity|].
  destruct (ans_pending (s_cs (w_st w))) eqn:Ep.
  - right. split; [reflexivity|]. rewrite cs_send_ans_ok in H by assumption. rewrite <- H.
    destruct (cs_answer_ok (w_st w) HI) as [P1 P2]. apply send_cases_ok; try assumption. cbv; intuition discriminate.
  - left. unfold uwan_clock_sync_send_answ in H. revert H. msteps. rewrite Ep. cbn [ret]. intro H.
    injection H as <- <- <-. repeat split; auto. discriminate.
Qed.
Lemma step_cs_handle E w e b n p v es w' : env_ok E -> Inv (w_st w) -> op_wf (OCsHandle e b n p) ->
  step E w (OCsHandle e b n p) = Some (v, es, w') ->
  v = VUnit /\ w_st w' = on_cs (fun _ => s_cs (w_st w')) (w_st w) /\
  cs_callbacks (s_cs (w_st w')) = cs_callbacks (s_cs (w_st w)) /\ Forall (fun x => is_cs_ev x = true) es.
Proof.
  intros HE HI Hw H. apply step_call in H. destruct H as [H _]. cbn [call] in H.
  apply as_unit_inv in H. destruct H as (-> & H). split; [reflexivity|].
  pose proof (wp_cs_handle E e b n p (w_hist w) (w_st w) HE HI Hw) as Hq. unfold wpu in Hq.
  rewrite H in Hq. destruct Hq as (_ & Q1 & Q2 & Q3). auto.
Qed.

(** Every call, by kind. *)
Inductive step_cases (E : env) (h : list ev) (s : st) : op -> val -> list ev -> st -> Prop :=
| S_simple o v s' : simple o s = Some (v, s') -> step_cases E h s o v [] s'
| S_init r : step_cases E h s (OInit r) VUnit (init_evs E h) (init_state r s)
| S_join e s' es : join_cases E h s (Ok (e, s', es)) -> step_cases E h s OJoin (VErr e) es s'
| S_send p d c e s' es : send_cases E p d c h s (Ok (e, s', es)) -> step_cases E h s (OSend p d c) (VErr e) es s'
| S_timer t : step_cases E h s (OTimer t) VUnit (timer_evs t s) s
| S_irq m s' es : irq_cases (relax E) m h s (Ok (tt, s', es)) -> step_cases E h s (OIrq m) VUnit es s'
| S_cs_handle e b n p es s' : s' = on_cs (fun _ => s_cs s') s -> cs_callbacks (s_cs s') = cs_callbacks (s_cs s) ->
    Forall (fun x => is_cs_ev x = true) es -> step_cases E h s (OCsHandle e b n p) VUnit es s'
| S_cs_req_no a e : cs_callbacks (s_cs s) = None -> e <> ERR_NO -> step_cases E h s (OCsSendReq a) (VErr e) [] s
| S_cs_req a e s' es : cs_callbacks (s_cs s) <> None ->
    send_cases E CS_PORT (cs_req_payload E a h s) false (h ++ [KUnixtime (e_unixtime E h)]) (cs_req_st s)
      (Ok (e, s', es)) ->
    step_cases E h s (OCsSendReq a) (VErr e) (KUnixtime (e_unixtime E h) :: es) s'
| S_cs_ans_no e : ans_pending (s_cs s) = false -> e <> ERR_NO -> step_cases E h s OCsSendAns (VErr e) [] s
| S_cs_ans e s' es : ans_pending (s_cs s) = true ->
    send_cases E CS_PORT (cs_answer s) false h s (Ok (e, s', es)) ->
    step_cases E h s OCsSendAns (VErr e) es s'.

Lemma step_inv E w o v es w' : env_ok E -> Inv (w_st w) -> op_wf o -> step E w o = Some (v, es, w') ->
  step_cases E (w_hist w) (w_st w) o v es (w_st w').
Proof.
  intros HE HI Hw H. destruct (simple o (w_st w)) as [[v1 s1]|] eqn:Es.
  { destruct (step_simple E w o v es w' v1 s1 HI Hw Es H) as (-> & -> & ->). apply S_simple. exact Es. }
  destruct o; cbn [simple] in Es; try discriminate.
  - destruct (step_init E w r v es w' HI H) as (-> & -> & ->). apply S_init.
  - destruct (step_join E w v es w' HE HI H) as (e & -> & Hc). apply S_join. exact Hc.
  - destruct (step_send E w port payload confirm v es w' HE HI Hw H) as (e & -> & Hc). apply S_send. exact Hc.
  - destruct (step_timer E w t v es w' HI H) as (-> & -> & ->). apply S_timer.
  - destruct (step_irq E w mask v es w' HE HI H) as (-> & Hc). apply S_irq. exact Hc.
  - destruct (step_cs_handle E w e buf size port v es w' HE HI Hw H) as (-> & H1 & H2 & H3).
    apply S_cs_handle; assumption.
  - destruct (step_cs_req E w ans_required v es w' HE HI H) as (e & -> & [(H1 & -> & -> & H4)|(H1 & es1 & -> & H2)]).
    + apply S_cs_req_no; assumption.
    + apply S_cs_req; assumption.
  - destruct (step_cs_ans E w v es w' HE HI H) as (e & -> & [(H1 & -> & -> & H4)|(H1 & H2)]).
    + apply S_cs_ans_no; assumption.
    + apply S_cs_ans; assumption.
Qed.
