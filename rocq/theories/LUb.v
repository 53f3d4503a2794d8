(** LUb.v -- which calls can end in undefined behaviour. *)
From Verif Require Export LPhase.

Lemma relax_id E : e_strict_shl E = false -> relax E = E.
Proof. destruct E. cbn. intros ->. reflexivity. Qed.

Lemma irq_undef E m h s k : env_ok E -> e_strict_shl E = false -> Inv s ->
  (call E (OIrq m) h s = Undef k <->
   k = UB_null /\ uw_state (s_stk s) = TX /\ Z.testbit m 2 = true /\ mac_save_dev_time (s_mac s) = true /\ mac_cbs (s_mac s) = None).
Proof.
  intros HE Hns HI. pose proof (irq_ok E m h s HE Hns HI) as H. unfold call, as_unit, bind.
  remember (evt_handler E m h s) as r eqn:Er. clear Er.
  destruct H; unfold flag in *; (split; [intro X; try discriminate X|intros (-> & A & B & C & D)]); try reflexivity; try (exfalso; congruence).
  - exfalso. intuition congruence.
  - injection X as <-. auto.
  - exfalso. apply H1; assumption.
Qed.

Lemma call_undef E o h s k : env_ok E -> Inv s -> op_wf o -> call E o h s = Undef k ->
  (e_strict_shl E = true /\ k = UB_shift) \/
  (exists m, o = OIrq m /\ k = UB_null /\ uw_state (s_stk s) = TX /\ Z.testbit m 2 = true /\
     mac_save_dev_time (s_mac s) = true /\ mac_cbs (s_mac s) = None) \/
  (exists e b n p, o = OCsHandle e b n p /\ cs_ub k).
Proof.
  intros HE HI Hw H.
  assert (R : (e_strict_shl E = true /\ k = UB_shift) \/ call (relax E) o h s = Undef k).
  { destruct (e_strict_shl E) eqn:Es.
    - destruct (refn_call E o h s) as [X|X]; [left|right]; [split; congruence|congruence].
    - right. rewrite relax_id; assumption. }
  destruct R as [R|R]; [auto|right].
  pose proof (call_wp (relax E) o h s (relax_ok E HE) eq_refl HI Hw) as W. unfold wpu in W. rewrite R in W.
  destruct o; cbn [call_ub] in W; try contradiction.
  - left. exists mask. split; [reflexivity|]. apply (irq_undef (relax E) mask h s k (relax_ok E HE) eq_refl HI). exact R.
  - right. eauto 8.
Qed.
