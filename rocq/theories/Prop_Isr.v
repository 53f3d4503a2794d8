(** Prop_Isr.v -- calls during which radio interrupts and timers are served (C93) *)
From Verif Require Import SpecIsr LIsr LReent LStep LClock PUp PIrq PMac PStrict Demo Prop_Down Prop_Join.
Open Scope m_scope.

Lemma then_served E I w o (m f : C err) v es w2 : call E o = as_err m -> call_isr E I o = as_err f ->
  f (w_hist w) (w_st w) = bind m (and_then E I) (w_hist w) (w_st w) ->
  step_isr E I w o = Some (v, es, w2) <-> served_after E (I 13%nat) w o v es w2.
Proof.
  intros Ho Hf Q. unfold step_isr, served_after, step. rewrite Ho, Hf. unfold as_err. destruct w as [s h]. cbn [w_hist w_st] in *.
  unfold bind at 1. rewrite Q. clear Q. unfold bind at 1 2. destruct (m h s) as [[[e s1] e1]|] eqn:Em.
  2: { split; [discriminate|]. intros (? & ? & ? & X & _). discriminate X. }
  assert (P : forall ops, match ((calls E ops ;;; ret e) (h ++ e1) s1) with
     | Ok (b, s2, e2) => match ret (VErr b) (h ++ e1 ++ e2) s2 with Ok (b0, s3, e3) => Some (b0, (e1 ++ e2) ++ e3, Mk_world s3 (h ++ (e1 ++ e2) ++ e3)) | Undef _ => None end
     | Undef _ => None end = Some (v, es, w2) <->
     exists tr, v = VErr e /\ exec E (Mk_world s1 (h ++ e1)) ops tr w2 /\ es = e1 ++ all_evs tr).
  { intro ops. unfold bind, ret. destruct (calls E ops (h ++ e1) s1) as [[[[] s2] e2]|] eqn:Ec.
    - rewrite !app_nil_r. split.
      + intro X. injection X as <- <- <-. apply calls_exec in Ec as (tr & Hx & ->). exists tr. rewrite <- app_assoc in Hx. auto.
      + intros (tr & -> & Hx & ->). destruct w2 as [s3 h3]. assert (Hh : h3 = (h ++ e1) ++ all_evs tr) by (change h3 with (w_hist (Mk_world s3 h3)); rewrite (exec_hist _ _ _ _ _ Hx); reflexivity).
        subst h3. rewrite (proj2 (calls_exec E ops (h ++ e1) s1 s3 (all_evs tr)) (ex_intro _ tr (conj Hx eq_refl))) in Ec. injection Ec as <- <-. rewrite app_assoc. reflexivity.
    - split; [discriminate|]. intros (tr & -> & Hx & ->). destruct w2 as [s3 h3].
      assert (Hh : h3 = (h ++ e1) ++ all_evs tr) by (change h3 with (w_hist (Mk_world s3 h3)); rewrite (exec_hist _ _ _ _ _ Hx); reflexivity).
      subst h3. rewrite (proj2 (calls_exec E ops (h ++ e1) s1 s3 (all_evs tr)) (ex_intro _ tr (conj Hx eq_refl))) in Ec. discriminate Ec. }
  specialize (P (match e with ERR_NO => I 13%nat | _ => [] end)).
  assert (R : and_then E I e (h ++ e1) s1 = (calls E (match e with ERR_NO => I 13%nat | _ => [] end) ;;; ret e) (h ++ e1) s1) by (unfold and_then; destruct e; reflexivity).
  rewrite R. clear R. destruct ((calls E (match e with ERR_NO => I 13%nat | _ => [] end) ;;; ret e) (h ++ e1) s1) as [[[b s2] e2]|].
  - etransitivity; [exact P|]. clear P. unfold bind, ret. rewrite app_nil_r. split.
    + intros (tr & -> & Hx & ->). exists e1, (Mk_world s1 (h ++ e1)), tr. auto.
    + intros (x & y & tr & X & Hx & ->). injection X as <- <- <-. exists tr. auto.
  - etransitivity; [exact P|]. clear P. unfold bind, ret. rewrite app_nil_r. split.
    + intros (tr & -> & Hx & ->). exists e1, (Mk_world s1 (h ++ e1)), tr. auto.
    + intros (x & y & tr & X & Hx & ->). injection X as <- <- <-. exists tr. auto.
Qed.

(** *** C93: for uwan_join it makes no difference whether the interrupts that arrive during the
    call, the end of the transmission and all that follows included, are served at once or
    after the call has returned. *)
Theorem C93_join E I w v es w2 : hw_only I -> no_tx_done (I 12%nat) ->
  step_isr E I w OJoin = Some (v, es, w2) <-> served_after E (I 13%nat) w OJoin v es w2.
Proof. intros Hw Hn. apply (then_served E I w OJoin (uwan_join E) (uwan_join_isr E I)); try reflexivity. apply join_isr; assumption. Qed.
Print Assumptions C93_join.

(** *** C93: nor for uwan_send_frame, as long as no packet is received before it returns, and
    the RX1 offset is 0 or the call does not lower the data rate. *)
Theorem C93_send_partial E I w p d c v es w2 : env_ok E -> reachable E w -> op_wf (OSend p d c) ->
  hw_only I -> no_tx_done (I 12%nat) -> no_rx_done (I 13%nat) ->
  uw_rx1_offset (stk w) = 0 \/ (forall v1 es1 w1, step E w (OSend p d c) = Some (v1, es1, w1) -> up_dr w1 = up_dr w) ->
  step_isr E I w (OSend p d c) = Some (v, es, w2) <-> served_after E (I 13%nat) w (OSend p d c) v es w2.
Proof.
  intros HE Hr Ho Hw Hn Hx Hd. pose proof (reach_Inv E w HE Hr) as HI.
  apply (then_served E I w (OSend p d c) (uwan_send_frame E p d (len d) c) (uwan_send_frame_isr E I p d (len d) c)); try reflexivity.
  destruct (send_isr E I p d (len d) c (w_hist w) (w_st w) Hw Hn Hx) as [Q|(Hc & s' & es' & Q)]; [exact Q|]. exfalso. apply Hc. clear Hc.
  destruct Hd as [Hd|Hd]; [left; exact Hd|]. right.
  assert (St : step E w (OSend p d c) = Some (VErr ERR_NO, es', Mk_world s' (w_hist w ++ es'))).
  { apply call_step. cbn [call]. unfold as_err. erewrite bind_ok; [|exact Q]. cbn [ret addev]. rewrite app_nil_r. reflexivity. }
  specialize (Hd _ _ _ St). destruct (step_send E w p d c _ _ _ HE HI Ho St) as (e & Y & Hs). injection Y as <-. inversion Hs. subst.
  unfold up_dr, adr_on, ses, stk in Hd. cbn [w_st] in Hd. destruct (adr_is_enabled (s_adr (w_st w))) eqn:Ea; [|left; reflexivity]. right.
  change (s_adr (send_state _ _)) with (r_uplink_adr (w_st w)) in Hd. unfold r_uplink_adr in Hd. cbn [adr_is_enabled set_ack_cnt] in Hd. rewrite Ea in Hd.
  change (ses_dr (s_ses (send_state _ _))) with (r_uplink_dr (w_st w)) in Hd. unfold r_uplink_dr in Hd. destruct (backs_off (w_st w)); [lia|reflexivity].
Qed.
Print Assumptions C93_send_partial.

(** ** Requests queued while answers to the network's commands are queued *)
Definition store {A} (K : C A) : C A :=
  pos <- get_mac mac_buf_pos ;; b <- get_mac mac_buf ;; b' <- arr_set b pos CID_LINK_CHECK ;;
  mod_mac (set_mac_buf b') ;;; mod_mac (set_mac_buf_pos (u8 (pos + 1))) ;;; K.
Lemma link_plain E w : env_ok E -> reachable E w -> let m := s_mac (w_st w) in
  (mac_buf_pos m < 15 -> forall h, uwan_mac_link_check_req h (w_st w) = Ok (true, with_mac (p_enq CID_LINK_CHECK [] m) (w_st w), []) /\
     forall A (K : C A), store K h (w_st w) = K h (with_mac (p_enq CID_LINK_CHECK [] m) (w_st w))) /\
  (mac_buf_pos m = 15 -> forall h, uwan_mac_link_check_req h (w_st w) = Ok (false, w_st w, []) /\
     forall A (K : C A), store K h (w_st w) = Undef UB_oob) /\
  0 <= mac_buf_pos m <= 15.
Proof.
  intros HE Hr m. pose proof (iv_mac _ (reach_Inv E w HE Hr)) as Hm. fold m in Hm. destruct Hm as [K1 K2 K3 K4].
  assert (Q : forall h, uwan_mac_link_check_req h (w_st w) = Ok (p_fits [] m, with_mac (p_enq CID_LINK_CHECK [] m) (w_st w), [])).
  { intro h. unfold uwan_mac_link_check_req. apply mac_enqueue_ok; [reflexivity|constructor; assumption|cbn; lia]. }
  assert (Hl : len (mac_buf m) = 15) by (unfold len; rewrite K1; reflexivity).
  split; [|split; [|exact K3]]; intros Hp h; (assert (F : p_fits [] m = (mac_buf_pos m <? 15)) by (unfold p_fits; cbn [len length Z.of_nat]; destruct (Z.leb_spec (mac_buf_pos m + 1 + 0) 15), (Z.ltb_spec (mac_buf_pos m) 15); lia || reflexivity)).
  - rewrite Q. replace (mac_buf_pos m <? 15) with true in F by lia. rewrite F. split; [reflexivity|]. intros A K.
    unfold store. rewrite !bind_get_mac. fold m. erewrite bind_ok0; [|apply arr_set_ok; lia]. unfold mod_mac. rewrite !bind_modify. unfold p_enq. rewrite F. unfold p_enq_mac. rewrite u8_id by lia.
    cbn [len length Z.of_nat]. rewrite Z.add_0_r, blit_one by lia. reflexivity.
  - rewrite Q. replace (mac_buf_pos m <? 15) with false in F by lia. rewrite F. unfold p_enq. rewrite F. unfold m at 1. rewrite with_mac_self. split; [reflexivity|]. intros A K.
    unfold store. rewrite !bind_get_mac. fold m. unfold arr_set, in_bounds. rewrite Hl, Hp. reflexivity.
Qed.
Lemma room_pos E w : env_ok E -> reachable E w -> has_room E w <-> mac_buf_pos (s_mac (w_st w)) < 15.
Proof.
  intros HE Hr. destruct (link_plain E w HE Hr) as (A & B & D). unfold has_room, step. cbn [call]. unfold as_bool, bind at 1.
  split.
  - intros (es & w' & X). destruct (Z.eq_dec (mac_buf_pos (s_mac (w_st w))) 15) as [Hp|]; [|lia]. rewrite (proj1 (B Hp (w_hist w))) in X. discriminate X.
  - intro Hp. rewrite (proj1 (A Hp (w_hist w))). cbn [ret]. eauto.
Qed.
Lemma noroom_pos E w : env_ok E -> reachable E w -> no_room E w <-> mac_buf_pos (s_mac (w_st w)) = 15.
Proof.
  intros HE Hr. destruct (link_plain E w HE Hr) as (A & B & D). unfold no_room, step. cbn [call]. unfold as_bool, bind at 1.
  split.
  - intros (es & w' & X). destruct (Z.eq_dec (mac_buf_pos (s_mac (w_st w))) 15) as [Hp|]; [assumption|]. rewrite (proj1 (A ltac:(lia) (w_hist w))) in X. discriminate X.
  - intro Hp. rewrite (proj1 (B Hp (w_hist w))). cbn [ret]. eauto.
Qed.
Lemma reach_on E w ops tr w' : reachable E w -> Forall op_wf ops -> exec E w ops tr w' -> reachable E w'.
Proof. intros (o0 & t0 & H0 & X0) Ho Hx. exists (o0 ++ ops), (t0 ++ tr). split; [apply Forall_app; auto|]. eapply exec_app; eassumption. Qed.
Lemma calls_app E a : forall b h s, calls E (a ++ b) h s = (calls E a ;;; calls E b) h s.
Proof.
  induction a as [|o a IH]; intros b h s; cbn [app calls].
  - symmetry. erewrite bind_ok0; [|reflexivity]. reflexivity.
  - rewrite bind_assoc. apply LReent.bind_ext; [reflexivity|]. intros. apply IH.
Qed.
Lemma calls_then {A} E a b (K : C A) h s : (calls E (a ++ b) ;;; K) h s = (calls E a ;;; (calls E b ;;; K)) h s.
Proof.
  transitivity (((calls E a ;;; calls E b) ;;; K) h s); [|apply bind_assoc]. apply LReent.bind_ext; [apply calls_app|reflexivity].
Qed.
Lemma exec_calls E w ops es w2 : (exists tr, exec E w ops tr w2 /\ es = all_evs tr) <->
  calls E ops (w_hist w) (w_st w) = Ok (tt, w_st w2, es) /\ w_hist w2 = w_hist w ++ es.
Proof.
  destruct w as [s h], w2 as [s2 h2]. cbn [w_st w_hist]. rewrite calls_exec. split.
  - intros (tr & Hx & ->). pose proof (exec_hist _ _ _ _ _ Hx) as Q. cbn [w_hist] in Q. subst h2. eauto.
  - intros ((tr & Hx & ->) & ->). eauto.
Qed.
Lemma then_calls_iff E w ops (x v : val) es w2 : (match (calls E ops ;;; ret x) (w_hist w) (w_st w) with
    | Undef _ => None | Ok (v, s', es) => Some (v, es, Mk_world s' (w_hist w ++ es)) end = Some (v, es, w2)) <->
  v = x /\ exists tr, exec E w ops tr w2 /\ es = all_evs tr.
Proof.
  rewrite exec_calls. unfold bind, ret. destruct (calls E ops (w_hist w) (w_st w)) as [[[[] s1] e1]|].
  - rewrite app_nil_r. split.
    + intro H. injection H as <- <- <-. auto.
    + intros (-> & H & Hh). injection H as -> ->. destruct w2 as [s2 h2]. cbn [w_st w_hist] in *. subst h2. reflexivity.
  - split; [discriminate|]. intros (_ & H & _). discriminate H.
Qed.

(** *** C93: a request queued while interrupts are served is queued as if they had been served
    before it (at points 0 and 1) or after it (point 2), if there is room for it both before
    and after them ... *)
Theorem C93_queue_partial E I w tr w1 v es w2 : env_ok E -> reachable E w -> (forall n, Forall op_wf (I n)) ->
  exec E w (I 0%nat ++ I 1%nat) tr w1 -> has_room E w -> has_room E w1 ->
  step_isr E I w OLinkCheckReq = Some (v, es, w2) <->
  v = VBool true /\ exists tr2, exec E w (I 0%nat ++ I 1%nat ++ [OLinkCheckReq] ++ I 2%nat) tr2 w2 /\ es = all_evs tr2.
Proof.
  intros HE Hr Hi Hx R0 R1. assert (Hr1 : reachable E w1) by (eapply reach_on; [exact Hr| |exact Hx]; apply Forall_app; auto).
  apply (room_pos E w HE Hr) in R0. pose proof (proj1 (room_pos E w1 HE Hr1) R1) as P1. clear R1.
  pose proof (proj1 (link_plain E w1 HE Hr1) P1) as L. pose proof (proj2 (proj2 (link_plain E w HE Hr))) as D0.
  destruct (proj1 (exec_calls E w _ (all_evs tr) w1) (ex_intro _ tr (conj Hx eq_refl))) as (Hc & Hh). rewrite calls_app in Hc.
  etransitivity; [|apply then_calls_iff].
  enough (Q : call_isr E I OLinkCheckReq (w_hist w) (w_st w) = (calls E (I 0%nat ++ I 1%nat ++ [OLinkCheckReq] ++ I 2%nat) ;;; ret (VBool true)) (w_hist w) (w_st w))
    by (unfold step_isr; rewrite Q; reflexivity).
  set (h := w_hist w) in *. set (s := w_st w) in *.
  cbn [call_isr]. unfold as_bool, uwan_mac_link_check_req_isr, mac_enqueue_isr. rewrite bind_assoc, bind_get_mac. cbv zeta.
  rewrite calls_then, bind_assoc. apply LReent.bind_ext; [reflexivity|]. intros [] sa ea Ha.
  replace (u8 (15 - mac_buf_pos (s_mac s)) <? 1) with false by (rewrite u8_id by lia; lia).
  rewrite calls_then, bind_assoc. apply LReent.bind_ext; [reflexivity|]. intros [] sb eb Hb.
  assert (Hs : sb = w_st w1) by (unfold bind in Hc; unfold isr in Ha, Hb; rewrite Ha, Hb in Hc; injection Hc as Hs _; exact Hs).
  rewrite Hs. clear Hs Hb Ha. set (h1 := (h ++ ea) ++ eb). clearbody h1. destruct (L h1) as (L1 & L2).
  rewrite calls_then. cbn [calls call]. unfold as_bool.
  assert (Q1 : bind (store (isr E I 2 ;;; ret true)) (fun b => ret (VBool b)) h1 (w_st w1) = (isr E I 2 ;;; ret (VBool true)) h1 (with_mac (p_enq CID_LINK_CHECK [] (s_mac (w_st w1))) (w_st w1))).
  { unfold bind at 1. rewrite L2. unfold isr. unfold bind at 1 2. destruct (calls E (I 2%nat) h1 _) as [[[a s1] e1]|]; [|reflexivity]. cbn [ret]. rewrite !app_nil_r. reflexivity. }
  unfold store in Q1. rewrite Q1. clear Q1.
  symmetry. rewrite bind_assoc. erewrite bind_ok0; [|erewrite bind_ok0; [|exact L1]; reflexivity].
  erewrite bind_ok0; [|reflexivity]. reflexivity.
Qed.
Print Assumptions C93_queue_partial.
(** *** ... refused if there is none before them ... *)
Theorem C93_queue_full E I w v es w2 : env_ok E -> reachable E w -> no_room E w ->
  step_isr E I w OLinkCheckReq = Some (v, es, w2) <->
  v = VBool false /\ exists tr2, exec E w (OLinkCheckReq :: I 0%nat) tr2 w2 /\ es = all_evs tr2.
Proof.
  intros HE Hr R0. apply (noroom_pos E w HE Hr) in R0. destruct (proj1 (proj2 (link_plain E w HE Hr)) R0 (w_hist w)) as (L1 & _).
  etransitivity; [|apply then_calls_iff].
  enough (Q : call_isr E I OLinkCheckReq (w_hist w) (w_st w) = (calls E (OLinkCheckReq :: I 0%nat) ;;; ret (VBool false)) (w_hist w) (w_st w))
    by (unfold step_isr; rewrite Q; reflexivity).
  cbn [call_isr calls call]. unfold as_bool, uwan_mac_link_check_req_isr, mac_enqueue_isr. rewrite bind_assoc, bind_get_mac, R0. cbv zeta. cbn [Z.sub].
  change (u8 (15 - 15) <? 1) with true. cbn iota.
  symmetry. rewrite bind_assoc. erewrite bind_ok0; [|erewrite bind_ok0; [|exact L1]; reflexivity].
  rewrite bind_assoc. apply LReent.bind_ext; [reflexivity|]. intros. symmetry. erewrite bind_ok0; [|reflexivity]. reflexivity.
Qed.
Print Assumptions C93_queue_full.
(** *** ... but if they leave none, the request is written behind the end of mac_buf. *)
Theorem C93_queue_overflow E I w tr w1 : env_ok E -> reachable E w -> (forall n, Forall op_wf (I n)) ->
  exec E w (I 0%nat ++ I 1%nat) tr w1 -> has_room E w -> no_room E w1 -> step_isr E I w OLinkCheckReq = None.
Proof.
  intros HE Hr Hi Hx R0 R1. assert (Hr1 : reachable E w1) by (eapply reach_on; [exact Hr| |exact Hx]; apply Forall_app; auto).
  apply (room_pos E w HE Hr) in R0. pose proof (proj1 (noroom_pos E w1 HE Hr1) R1) as P1. clear R1.
  pose proof (proj1 (proj2 (link_plain E w1 HE Hr1)) P1) as L. pose proof (proj2 (proj2 (link_plain E w HE Hr))) as D0.
  destruct (proj1 (exec_calls E w _ (all_evs tr) w1) (ex_intro _ tr (conj Hx eq_refl))) as (Hc & Hh). rewrite calls_app in Hc.
  unfold step_isr. set (h := w_hist w) in *. set (s := w_st w) in *.
  cbn [call_isr]. unfold as_bool, uwan_mac_link_check_req_isr, mac_enqueue_isr. rewrite bind_assoc, bind_get_mac. cbv zeta.
  replace (u8 (15 - mac_buf_pos (s_mac s)) <? 1) with false by (rewrite u8_id by lia; lia).
  unfold bind in Hc. destruct (calls E (I 0%nat) h s) as [[[[] sa] ea]|] eqn:Ha; [|discriminate Hc].
  destruct (calls E (I 1%nat) (h ++ ea) sa) as [[[[] sb] eb]|] eqn:Hb; [|discriminate Hc]. injection Hc as Hs _. rewrite Hs in Hb. clear Hs.
  rewrite bind_assoc. erewrite bind_ok; [|exact Ha]. rewrite bind_assoc. erewrite bind_ok; [|exact Hb].
  pose proof (proj2 (L ((h ++ ea) ++ eb)) _ (isr E I 2 ;;; ret true)) as L2. unfold store in L2. unfold bind at 1. rewrite L2. reflexivity.
Qed.
Print Assumptions C93_queue_overflow.

(** Cases. An uplink during which the clock of an earlier window goes off and the radio
    reports something before the transmission starts, and whose end is reported before the
    call returns; a join request that is answered before the call returns. *)
Definition at_point (n : nat) (ops : list op) : strikes := fun k => if Nat.eqb k n then ops else [].
Definition strewn (ops : list op) : strikes := fun k =>
  if Nat.eqb k 13 then ops else if Nat.eqb k 12 then [OIrq 1; OTimer TIMER_RX1] else [OTimer TIMER_RX2; OIrq 3].
Lemma at_hw n ops : Forall hw ops -> hw_only (at_point n ops).
Proof. intros H k. unfold at_point. destruct (Nat.eqb k n); [exact H|constructor]. Qed.
Lemma at_wf n ops : Forall op_wf ops -> forall k, Forall op_wf (at_point n ops k).
Proof. intros H k. unfold at_point. destruct (Nat.eqb k n); [exact H|constructor]. Qed.
Lemma strewn_hw ops : Forall hw ops -> hw_only (strewn ops).
Proof. intros H k. unfold strewn. destruct (Nat.eqb k 13); [exact H|]. destruct (Nat.eqb k 12); repeat constructor. Qed.
Definition isr_case (E : env) (I : strikes) (ops : list op) (o : op) (P : val -> list ev -> world -> bool) : Prop :=
  exists v es w2, env_ok E /\ reachable E (after E ops) /\ op_wf o /\ step_isr E I (after E ops) o = Some (v, es, w2) /\ P v es w2 = true.
Lemma isr_case_ok E I ops o P : env_ok E -> forallb op_wfb ops && runs E ops && op_wfb o &&
  match step_isr E I (after E ops) o with Some (v, es, w2) => P v es w2 | None => false end = true -> isr_case E I ops o P.
Proof.
  intros HE H. apply andb_prop in H as [H HP]. apply andb_prop in H as [H Ho]. unfold isr_case.
  destruct (step_isr E I (after E ops) o) as [[[v es] w2]|] eqn:Q; [|discriminate HP].
  exists v, es, w2. split; [exact HE|]. split; [apply after_reach; exact H|]. split; [apply op_wfb_ok; exact Ho|]. split; [reflexivity|exact HP].
Qed.
Ltac isr_case := apply isr_case_ok; [apply demo_ok|vm_compute; reflexivity].
Definition in_state (x : stack_state) (w : world) : bool :=
  match uw_state (stk w), x with NOT_INIT, NOT_INIT | IDLE, IDLE | TX, TX | RX1, RX1 | RX2, RX2 => true | _, _ => false end.
Definition on_time : list op := [OIrq 4; OTimer TIMER_RX1; OIrq 1; OTimer TIMER_RX2; OIrq 1].
Example C93_send_case : let I := strewn on_time in hw_only I /\ no_tx_done (I 12%nat) /\ no_rx_done (I 13%nat) /\
  isr_case (demo [1; 2; 3] []) I (abp 0 7) (OSend 1 [7; 8] false) (fun v es w2 =>
    match v, tx_frames es, callbacks es with VErr ERR_NO, [f], [(ERR_RX_TIMEOUT, _, _)] => in_state IDLE w2 | _, _, _ => false end).
Proof.
  cbv zeta. split; [apply strewn_hw; repeat constructor|]. split; [repeat constructor|]. split; [repeat constructor|]. isr_case.
Qed.
Example C93_join_case : let I := strewn [OIrq 4; OTimer TIMER_RX1; OIrq 2] in hw_only I /\ no_tx_done (I 12%nat) /\
  isr_case (demo [1; 2; 3] [(ja_demo, 5)]) I (otaa EU868) OJoin (fun v es w2 =>
    match v, tx_frames es, callbacks es with VErr ERR_NO, [f], [(ERR_NO, _, _)] => is_joined (ses w2) | _, _, _ => false end).
Proof.
  cbv zeta. split; [apply strewn_hw; repeat constructor|]. split; [repeat constructor|]. isr_case.
Qed.

(** *** The claim without the restriction on the data rate: the data rate of the first window
    depends on when the end of the transmission is served. The 4th uplink without an answer
    lowers the data rate from 3 to 2; with an RX1 offset of 1 its first window is at data rate
    2 if the interrupt comes before adr_handle_uplink and at 1 if it comes after. *)
Definition lonely : list op := [OSend 1 [7] false] ++ on_time.
Definition fading : list op := abp 0 7 ++ [OAdrEnable true; OSetDr 3; OSetRx1Off 1; OAdrSetup 1 2] ++ lonely ++ lonely ++ lonely.
Definition E93 : env := demo [1; 2; 3; 4; 5; 6; 7; 8] [].
Definition setups (es : list ev) : list Z := flat_map (fun e => match e with RSetup p => [p_sf p] | _ => [] end) es.
Example C93_send_refuted_values :
  match step_isr E93 (at_point 13 [OIrq 4]) (after E93 fading) (OSend 1 [7] false), run E93 (after E93 fading) [OSend 1 [7] false; OIrq 4] with
  | Some (_, es, _), Some (tr, _) => (setups es, setups (all_evs tr)) = ([3; 4], [3; 5])
  | _, _ => False
  end.
Proof. vm_compute. reflexivity. Qed.
Lemma exec_run E ops : forall w tr w', exec E w ops tr w' -> run E w ops = Some (tr, w').
Proof. intros w tr w' H. induction H as [|w o ops v es w1 tr w2 Hs Hx IH]; cbn [run]; [reflexivity|]. rewrite Hs, IH. reflexivity. Qed.
Lemma served_run E ops w o v es w2 : served_after E ops w o v es w2 -> v = VErr ERR_NO ->
  exists tr, run E w (o :: ops) = Some (tr, w2) /\ es = all_evs tr.
Proof.
  intros (es1 & w1 & tr & Hs & Hx & ->) ->. exists ((o, VErr ERR_NO, es1) :: tr). split; [|reflexivity].
  apply exec_run. eapply exec_cons; eassumption.
Qed.
Theorem C93_send_refuted : ~ (forall E I w p d c v es w2, env_ok E -> reachable E w -> op_wf (OSend p d c) ->
  hw_only I -> no_tx_done (I 12%nat) -> no_rx_done (I 13%nat) ->
  step_isr E I w (OSend p d c) = Some (v, es, w2) -> served_after E (I 13%nat) w (OSend p d c) v es w2).
Proof.
  intro C. pose proof C93_send_refuted_values as V.
  destruct (step_isr E93 (at_point 13 [OIrq 4]) (after E93 fading) (OSend 1 [7] false)) as [[[v es] w2]|] eqn:Q; [|contradiction V].
  destruct (run E93 (after E93 fading) [OSend 1 [7] false; OIrq 4]) as [[tr w3]|] eqn:R; [|contradiction V].
  assert (Hv : v = VErr ERR_NO).
  { assert (X : match step_isr E93 (at_point 13 [OIrq 4]) (after E93 fading) (OSend 1 [7] false) with Some (VErr ERR_NO, _, _) => true | _ => false end = true) by (vm_compute; reflexivity).
    rewrite Q in X. destruct v as [| | |[]]; try discriminate X. reflexivity. }
  assert (S : served_after E93 (at_point 13 [OIrq 4] 13%nat) (after E93 fading) (OSend 1 [7] false) v es w2).
  { apply C; try exact Q; [apply demo_ok|apply after_reach; vm_compute; reflexivity|apply op_wfb_ok; reflexivity|apply at_hw; repeat constructor|constructor|repeat constructor]. }
  destruct (served_run _ _ _ _ _ _ _ S Hv) as (tr' & R' & He). change (at_point 13 [OIrq 4] 13%nat) with [OIrq 4] in R'. rewrite R in R'. injection R' as <- _.
  rewrite <- He in V. injection V as V1 V2. rewrite V1 in V2. discriminate V2.
Qed.
Print Assumptions C93_send_refuted.

(** *** The claim without the restriction on packets: a downlink that is handled before
    uwan_send_frame returns resets the ADR counter too early, and the answered uplink counts
    as unanswered. *)
Definition E93b : env := demo [1; 2; 3; 4] [(dl 8 false 0 [] (Some (5, [1; 2])), 9)].
Definition at_once : list op := [OIrq 4; OTimer TIMER_RX1; OIrq 2].
Example C93_send_packet_values :
  match step_isr E93b (at_point 13 at_once) (after E93b (abp 0 7)) (OSend 1 [7] false), run E93b (after E93b (abp 0 7)) (OSend 1 [7] false :: at_once) with
  | Some (VErr ERR_NO, _, w2), Some (_, w3) => ack_cnt (s_adr (w_st w2)) = 1 /\ ack_cnt (s_adr (w_st w3)) = 0
  | _, _ => False
  end.
Proof. vm_compute. split; reflexivity. Qed.
Theorem C93_send_packet_refuted : ~ (forall E I w p d c v es w2, env_ok E -> reachable E w -> op_wf (OSend p d c) ->
  hw_only I -> no_tx_done (I 12%nat) -> uw_rx1_offset (stk w) = 0 ->
  step_isr E I w (OSend p d c) = Some (v, es, w2) -> served_after E (I 13%nat) w (OSend p d c) v es w2).
Proof.
  intro C. pose proof C93_send_packet_values as V.
  destruct (step_isr E93b (at_point 13 at_once) (after E93b (abp 0 7)) (OSend 1 [7] false)) as [[[v es] w2]|] eqn:Q; [|exact V].
  destruct (run E93b (after E93b (abp 0 7)) (OSend 1 [7] false :: at_once)) as [[tr w3]|] eqn:R; [|destruct v as [| | |[]]; exact V].
  destruct v as [| | |[]]; try exact (False_ind _ V).
  destruct V as [V1 V2].
  assert (S : served_after E93b (at_point 13 at_once 13%nat) (after E93b (abp 0 7)) (OSend 1 [7] false) (VErr ERR_NO) es w2).
  { apply C; [apply demo_ok|apply after_reach; vm_compute; reflexivity|apply op_wfb_ok; reflexivity|apply at_hw; repeat constructor|constructor|vm_compute; reflexivity|exact Q]. }
  destruct (served_run _ _ _ _ _ _ _ S eq_refl) as (tr' & R' & He). change (at_point 13 at_once 13%nat) with at_once in R'. rewrite R in R'. injection R' as _ <-.
  rewrite V1 in V2. discriminate V2.
Qed.
Print Assumptions C93_send_packet_refuted.

(** *** The claim without the restriction on the room: 14 bytes are queued when the request is
    made, and the downlink that arrives between the check and the store has its answer queued
    as the 15th. Served before or after the call the same interrupt does no harm. *)
Definition E93c : env := demo [1; 2; 3; 4] [(dl 8 false 0 [8; 1] None, 9)].
Definition crowded : list op := abp 0 7 ++ after_uplink ++ [OTimer TIMER_RX1] ++ repeat OLinkCheckReq 14.
Theorem C93_queue_refuted : ~ (forall E I w, env_ok E -> reachable E w -> hw_only I -> (forall n, Forall op_wf (I n)) ->
  (exists tr w1, exec E w (OLinkCheckReq :: I 1%nat) tr w1) -> (exists tr w1, exec E w (I 1%nat ++ [OLinkCheckReq]) tr w1) ->
  step_isr E I w OLinkCheckReq <> None).
Proof.
  intro C. apply (C E93c (at_point 1 [OIrq 2]) (after E93c crowded)).
  - apply demo_ok.
  - apply after_reach. vm_compute. reflexivity.
  - apply at_hw. repeat constructor.
  - apply at_wf. constructor; [apply op_wfb_ok; reflexivity|constructor].
  - destruct (run E93c (after E93c crowded) (OLinkCheckReq :: at_point 1 [OIrq 2] 1%nat)) as [[tr w1]|] eqn:R; [|vm_compute in R; discriminate R].
    exists tr, w1. apply run_exec. exact R.
  - destruct (run E93c (after E93c crowded) (at_point 1 [OIrq 2] 1%nat ++ [OLinkCheckReq])) as [[tr w1]|] eqn:R; [|vm_compute in R; discriminate R].
    exists tr, w1. apply run_exec. exact R.
  - vm_compute. reflexivity.
Qed.
Print Assumptions C93_queue_refuted.
(** The cases of the three theorems about the queue: with one request fewer in it, with one
    more, and as it is. *)
Example C93_queue_case : exists tr w1 w2 es, let w := after E93c (removelast crowded) in let I := at_point 1 [OIrq 2] in
  exec E93c w (I 0%nat ++ I 1%nat) tr w1 /\ has_room E93c w /\ has_room E93c w1 /\ step_isr E93c I w OLinkCheckReq = Some (VBool true, es, w2) /\
  mac_buf_pos (s_mac (w_st w2)) = 15.
Proof.
  cbv zeta. set (w := after E93c (removelast crowded)).
  destruct (run E93c w [OIrq 2]) as [[tr w1]|] eqn:R; [|vm_compute in R; discriminate R].
  destruct (step_isr E93c (at_point 1 [OIrq 2]) w OLinkCheckReq) as [[[v es] w2]|] eqn:Q; [|vm_compute in Q; discriminate Q].
  assert (Hv : v = VBool true) by (vm_compute in Q; injection Q as <- _ _; reflexivity). subst v.
  exists tr, w1, w2, es. split; [apply run_exec; exact R|].
  split; [vm_compute; eauto|]. split; [vm_compute in R; injection R as _ <-; vm_compute; eauto|]. split; [reflexivity|].
  vm_compute in Q. injection Q as _ <-. reflexivity.
Qed.
Example C93_queue_full_case : no_room E93c (after E93c (crowded ++ [OLinkCheckReq])) /\
  exists es w2, step_isr E93c (at_point 0 [OIrq 2]) (after E93c (crowded ++ [OLinkCheckReq])) OLinkCheckReq = Some (VBool false, es, w2) /\ callbacks es <> [].
Proof.
  split; [vm_compute; eauto|].
  destruct (step_isr E93c (at_point 0 [OIrq 2]) (after E93c (crowded ++ [OLinkCheckReq])) OLinkCheckReq) as [[[v es] w2]|] eqn:Q; [|vm_compute in Q; discriminate Q].
  assert (Hv : v = VBool false) by (vm_compute in Q; injection Q as <- _ _; reflexivity). subst v.
  exists es, w2. split; [reflexivity|]. vm_compute in Q. injection Q as <- _. discriminate.
Qed.
Example C93_queue_overflow_case : exists tr w1, let w := after E93c crowded in let I := at_point 1 [OIrq 2] in
  exec E93c w (I 0%nat ++ I 1%nat) tr w1 /\ has_room E93c w /\ no_room E93c w1.
Proof.
  cbv zeta. set (w := after E93c crowded). destruct (run E93c w [OIrq 2]) as [[tr w1]|] eqn:R; [|vm_compute in R; discriminate R].
  exists tr, w1. split; [apply run_exec; exact R|]. split; [vm_compute; eauto|]. vm_compute in R. injection R as _ <-. vm_compute. eauto.
Qed.
