(** LTime.v -- MAC handlers and device time along executions. *)
From Verif Require Export LUb.

Lemma times_link es : times (link es) = times es.
Proof. induction es as [|e es IH]; [reflexivity|]. unfold link, times in *. destruct e; cbn; rewrite ?IH; reflexivity. Qed.
Lemma ended_link es : tx_ended (link es) = tx_ended es.
Proof. induction es as [|e es IH]; [reflexivity|]. unfold link, tx_ended in *. destruct e; cbn; rewrite ?IH; reflexivity. Qed.
Lemma times_app a b : times (a ++ b) = times a ++ times b.
Proof. apply flat_map_app. Qed.

Lemma phase_times E w o v es w' : phase_case E w o v es w' ->
  (ph w = TX /\ w_st w' = tx_done_state E (w_hist w) (w_st w) /\ es = tx_done_evs E (w_hist w) (w_st w) /\
     time_ok (s_mac (w_st w)) /\ exists m, o = OIrq m /\ Z.testbit m 2 = true) \/
  (times es = [] /\ tx_ended es = false).
Proof.
  intros [r A B C D|fr pw f A B C D F G _ _ _ _ _ _|m A B C D F G H|m A B C D F G|m pre rd e t vw A B C D F G H _ _ _ _ _|t A B C D|m A B C D _|A _ _ _ _ _ _].
  - right. subst es. split; reflexivity.
  - right. rewrite <- times_link, <- ended_link, F. split; reflexivity.
  - left. eauto 10.
  - right. subst es. split; reflexivity.
  - right. subst es. rewrite <- times_link, <- ended_link, link_app, G. unfold rx_pre.
    destruct (uw_state _); destruct H as [(-> & _)|(-> & _)]; split; reflexivity.
  - right. subst es. unfold timer_evs. destruct (uw_state _), t; split; reflexivity.
  - right. subst es. split; reflexivity.
  - right. rewrite <- times_link, <- ended_link, A. split; reflexivity.
Qed.

Lemma last_app_nil (a : list Z) d : last (a ++ []) d = last a d.
Proof. rewrite app_nil_r. reflexivity. Qed.
Lemma last_app_one (a : list Z) x d : last (a ++ [x]) d = x.
Proof. induction a as [|y a IH]; [reflexivity|]. cbn [app]. destruct (a ++ [x]) eqn:Q; [destruct a; discriminate|]. exact IH. Qed.

Lemma exec_time E ops tr w : env_ok E -> Forall op_wf ops -> exec E world0 ops tr w ->
  mac_save_dev_time (s_mac (w_st w)) = time_pending tr /\ mac_cbs (s_mac (w_st w)) = handlers tr /\
  mac_dev_time (s_mac (w_st w)) = last_time tr.
Proof.
  intros HE. revert ops tr w.
  apply (exec_snoc_ind E (fun tr w => mac_save_dev_time (s_mac (w_st w)) = time_pending tr /\ mac_cbs (s_mac (w_st w)) = handlers tr /\
    mac_dev_time (s_mac (w_st w)) = last_time tr) HE).
  { repeat split; reflexivity. }
  intros ops tr w o v es w' _ _ HI _ (I1 & I2 & I3) Hw H.
  destruct (step_phase E w o v es w' HE HI Hw H) as (P & _). apply phase_times in P.
  pose proof (step_mac E w o v es w' HE HI Hw H) as M.
  unfold time_pending, handlers, last_time, all_evs. rewrite !fold_left_app, flat_map_app, times_app. cbn [fold_left flat_map].
  rewrite app_nil_r. change (evs_of (o, v, es)) with es.
  unfold time_pending in I1. unfold handlers in I2. unfold entry in I1, I2. rewrite <- I1, <- I2. unfold last_time, all_evs in I3.
  destruct P as [(P1 & P2 & P3 & P4 & m & P5 & P6)|(P1 & P2)].
  - subst o. unfold pending_step, handlers_step. rewrite P2. cbn [tx_done_state s_mac]. rewrite P3.
    assert (Q : tx_ended (tx_done_evs E (w_hist w) (w_st w)) = true) by reflexivity. rewrite Q.
    unfold tx_done_evs. rewrite times_app. change (times (tx_done_evs1 (w_st w))) with (@nil Z). cbn [app].
    unfold tx_done_mac, tx_done_time. unfold time_ok in P4. destruct (mac_save_dev_time (s_mac (w_st w))) eqn:Es.
    + destruct (mac_cbs (s_mac (w_st w))) as [cb|] eqn:Ec; [|exfalso; apply P4; auto].
      destruct (has_get_device_time cb); cbn [set_mac_save_dev_time set_mac_dev_time mac_save_dev_time mac_cbs mac_dev_time times flat_map app].
      * rewrite last_app_one. auto.
      * rewrite last_app_nil. auto.
    + cbn [times flat_map]. rewrite last_app_nil. auto.
  - rewrite P1, last_app_nil.
    assert (S : forall (b : bool) c, (forall r, o <> OInit r) -> o <> ODevTimeReq -> (forall c', o <> OSetHandlers c') ->
      pending_step b (o, v, es) = b /\ handlers_step c (o, v, es) = c).
    { intros b c N1 N2 N3. unfold pending_step, handlers_step. rewrite P2. destruct o; try (split; reflexivity); exfalso; [exact (N1 _ eq_refl)|exact (N3 _ eq_refl)|exact (N2 eq_refl)]. }
    assert (Hh : (exists c, o = OSetHandlers c) \/ (forall c, o <> OSetHandlers c)) by (destruct o; eauto; right; discriminate).
    destruct Hh as [(c & ->)|Hh].
    { apply step_simple with (v1 := VUnit) (s1 := on_mac (set_mac_cbs c) (w_st w)) in H; [|assumption|exact I|reflexivity].
      destruct H as (-> & -> & ->). cbn. auto. }
    assert (Enq : forall cid m, mac_save_dev_time (p_enq cid [] m) = mac_save_dev_time m /\ mac_cbs (p_enq cid [] m) = mac_cbs m /\ mac_dev_time (p_enq cid [] m) = mac_dev_time m) by (intros cid m; unfold p_enq; destruct (p_fits [] m); auto).
    destruct M as [A B C N1 N2|r A B C|f A B C D|A B C D|A B C D|c A B C|m A B C D F0 F G|m A B C D F G].
    + rewrite A. destruct (S (mac_save_dev_time (s_mac (w_st w))) (mac_cbs (s_mac (w_st w)))) as (-> & ->); auto.
    + subst o. rewrite C. auto.
    + destruct (S (mac_save_dev_time (s_mac (w_st w))) (mac_cbs (s_mac (w_st w)))) as (-> & ->); [intros ? ->; discriminate|intros ->; discriminate|intros ? ->; discriminate|].
      rewrite D. auto.
    + subst o. rewrite D. unfold pending_step, handlers_step. rewrite P2. destruct (Enq 2 (s_mac (w_st w))) as (-> & -> & ->). auto.
    + subst o v. rewrite D. unfold pending_step, handlers_step. cbn [set_mac_save_dev_time mac_save_dev_time mac_cbs mac_dev_time].
      destruct (Enq 13 (s_mac (w_st w))) as (_ & -> & ->). auto.
    + exfalso. exact (Hh c A).
    + rewrite F0 in P2. discriminate.
    + destruct (S (mac_save_dev_time (s_mac (w_st w))) (mac_cbs (s_mac (w_st w)))) as (-> & ->); [intros ? ->; discriminate|intros ->; discriminate|intros ? ->; discriminate|].
      destruct F as (_ & F1 & F2 & F3 & _). rewrite F1, F2, F3. auto.
Qed.
