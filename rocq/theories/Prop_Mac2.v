(** Prop_Mac2.v -- MAC requests and optional handlers: C23, C24. *)
From Verif Require Import LTime Demo Prop_Down Prop_Mac.

(** ** C23 LinkCheckAns and DeviceTimeAns are reported faithfully *)
Theorem C23_link_check : forall E w m v es w' margin gw,
  env_ok E -> reachable E w -> op_wf (OIrq m) -> step E w (OIrq m) = Some (v, es, w') ->
  accepted_fopts E w m es [2; margin; gw] ->
  mac_calls es = match mac_cbs (s_mac (w_st w)) with
                 | Some cb => if has_link_check_result cb then [MLinkCheck margin gw] else []
                 | None => []
                 end /\
  fopts w' = fopts w /\ same_radio w w' /\ same_chan w w' /\ same_rx w w' /\ same_delay w w'.
Proof.
  intros E w m v es w' margin gw HE Hr Hw H Ha. pose proof (reach_Inv E w HE Hr) as HI.
  destruct (accepted_run E w m v es w' _ HE HI H Ha) as (X & _ & _).
  change (mac_parse [2; margin; gw]) with [LinkCheckAns margin gw] in X. rewrite run_single in X. cbn [mac_exec fst snd] in X.
  pose proof (f_equal fst X) as X1. pose proof (f_equal snd X) as X2. cbn [fst snd] in X1, X2. clear X. split; [exact X2|].
  observe w w' X1. see. split; [reflexivity|]. split; [repeat split; reflexivity|].
  split; [same_table Ht Ht0|]. repeat split; reflexivity.
Qed.
Print Assumptions C23_link_check.
Example C23_link_check_case : case_of (demo [] [(dl 8 false 0 [2; 17; 3] None, 9)])
  (abp 0 7 ++ [OSetHandlers (Some (Mk_mac_callbacks false true false false))] ++ after_uplink) (OIrq 2)
  (fun w v es w' => recvb w 2 && cb_is ERR_NO es && match mac_calls es with [MLinkCheck 17 3] => true | _ => false end).
Proof. show_case. Qed.

(** DeviceTimeAns: GPS seconds are converted to Unix time (18 leap seconds), the
    fraction is passed on, and the local time is the last one sampled. *)
Theorem C23_device_time_partial : forall E ops tr w m v es w' s0 s1 s2 s3 f,
  env_ok E -> Forall op_wf ops -> exec E world0 ops tr w -> op_wf (OIrq m) -> step E w (OIrq m) = Some (v, es, w') ->
  accepted_fopts E w m es [13; s0; s1; s2; s3; f] ->
  let gps := s0 + 256 * s1 + 65536 * s2 + 16777216 * s3 in
  mac_calls es = match handlers tr with
                 | Some cb => if has_device_time_result cb
                              then [MTimeResult (last_time tr) ((gps + 315964800 - 18) mod 4294967296) f] else []
                 | None => []
                 end /\
  fopts w' = fopts w /\ same_radio w w' /\ same_chan w w' /\ same_rx w w' /\ same_delay w w'.
Proof.
  intros E ops tr w m v es w' s0 s1 s2 s3 f HE Ho Hx Hw H Ha gps. pose proof (exec_Inv E world0 _ _ _ HE power_on_Inv Ho Hx) as HI.
  destruct (exec_time E ops tr w HE Ho Hx) as (T1 & T2 & T3).
  destruct (accepted_run E w m v es w' _ HE HI H Ha) as (X & _ & _).
  change (mac_parse [13; s0; s1; s2; s3; f]) with [DeviceTimeAns (unle [s0; s1; s2; s3]) f] in X. rewrite run_single in X. cbn [mac_exec fst snd] in X.
  assert (Em : unle [s0; s1; s2; s3] = gps) by (unfold gps; cbn [unle]; lia). rewrite Em in X.
  change (x_cbs (rx_ctx E w)) with (mac_cbs (s_mac (w_st w))) in X. change (x_time (rx_ctx E w)) with (mac_dev_time (s_mac (w_st w))) in X.
  rewrite T2, T3 in X.
  pose proof (f_equal fst X) as X1. pose proof (f_equal snd X) as X2. cbn [fst snd] in X1, X2. clear X. split; [exact X2|].
  observe w w' X1. see. split; [reflexivity|]. split; [repeat split; reflexivity|].
  split; [same_table Ht Ht0|]. repeat split; reflexivity.
Qed.
Print Assumptions C23_device_time_partial.

(** a request, its uplink, the time (777) sampled at its end, and the answer *)
Example C23_device_time_case : run_of (demo [] [(dl 8 false 0 ([13] ++ le 4 1400000000 ++ [128]) None, 9)])
  (abp 0 7 ++ [OSetHandlers (Some (Mk_mac_callbacks false false true true))])
  [ODevTimeReq; OSend 1 [7] false; OIrq 4; OIrq 2]
  (fun w tr w' => match times (all_evs tr), mac_calls (all_evs tr) with
                  | [t], [MTimeResult t' n 128] => (t =? t') && (n =? 1715964782)
                  | _, _ => false
                  end).
Proof. show_run. Qed.

(** The setting of the property: a request accepted in [w], then the next data
    uplink [f] (sent in [w2]), then the end of its transmission (in [w4]). *)
Record C23_setting (E : env) (w w1 : world) (ops1 : list op) (tr1 : list entry) (w2 : world) (o : op) (v : val) (es : list ev)
    (w3 : world) (ops2 : list op) (tr2 : list entry) (w4 : world) (m : Z) (es' : list ev) (w5 : world) (f : list Z) : Prop := Mk_C23 {
  s23_env : env_ok E;
  s23_reach : reachable E w;
  s23_handler : exists cb, mac_cbs (s_mac (w_st w)) = Some cb /\ has_get_device_time cb = true;
  s23_req : step E w ODevTimeReq = Some (VBool true, [], w1);
  s23_wf1 : Forall op_wf ops1;
  s23_run1 : exec E w1 ops1 tr1 w2;
  s23_none1 : data_frames tr1 = [];
  s23_wf : op_wf o;
  s23_up : step E w2 o = Some (v, es, w3);
  s23_frame : data_frames [(o, v, es)] = [f];
  s23_wf2 : Forall op_wf ops2;
  s23_run2 : exec E w3 ops2 tr2 w4;
  s23_none2 : tx_frames (all_evs tr2) = [];
  s23_wfm : op_wf (OIrq m);
  s23_tx : uw_state (stk w4) = TX;
  s23_end : Z.testbit m 2 = true;
  s23_done : step E w4 (OIrq m) = Some (VUnit, es', w5);
  s23_noinit : Forall (fun o' => (forall r, o' <> OInit r) /\ (forall c, o' <> OSetHandlers c)) (ops1 ++ ops2)
}.
(** the property: the uplink carries the request and the time is sampled at its
    end and not before *)
Definition C23_claim (f : list Z) (tr1 : list entry) (es : list ev) (tr2 : list entry) (es' : list ev) : Prop :=
  In 13 (fr_fopts f) /\ times (all_evs tr1) = [] /\ times es = [] /\ times (all_evs tr2) = [] /\ exists t, times es' = [t].
Definition refused_request : entry := (ODevTimeReq, VBool false, []).

(** one call that neither transmits nor changes the handlers *)
Lemma quiet_step E w o v es w' : env_ok E -> Inv (w_st w) -> op_wf o -> step E w o = Some (v, es, w') ->
  tx_frames es = [] -> (forall r, o <> OInit r) -> (forall c, o <> OSetHandlers c) -> (o, v, es) <> refused_request ->
  mac_save_dev_time (s_mac (w_st w)) = true ->
  mac_cbs (s_mac (w_st w')) = mac_cbs (s_mac (w_st w)) /\
  (exists q, fopts w' = fopts w ++ q) /\
  ((ph w = TX /\ ph w' <> TX) \/
   (times es = [] /\ mac_save_dev_time (s_mac (w_st w')) = true /\ (ph w' = TX <-> ph w = TX))).
Proof.
  intros HE HI Hw H Ht N1 N2 N3 Hf.
  assert (Hd : data_frames [(o, v, es)] = []) by (unfold data_frames; cbn [flat_map fst snd]; rewrite Ht; destruct o; reflexivity).
  pose proof (step_mac E w o v es w' HE HI Hw H) as M.
  destruct (step_phase E w o v es w' HE HI Hw H) as (P & _).
  assert (Q : exists q, fopts w' = fopts w ++ q).
  { destruct (step_queue E w o v es w' HE HI Hw H) as [(r & A & _)|[(f & A & _)|(_ & _ & ch & B & _)]]; [exfalso; exact (N1 r A)|congruence|eauto]. }
  assert (Tm : times es = [] -> tx_ended es = false ->
     mac_cbs (s_mac (w_st w')) = mac_cbs (s_mac (w_st w)) /\ mac_save_dev_time (s_mac (w_st w')) = true).
  { intros _ T2. destruct M as [A B C M1 M2|r A B C|f A B C D|A B C D|A B C D|c A B C|m A B C D F0 F G|m A B C D F G].
    - rewrite A. auto.
    - exfalso. exact (N1 r A).
    - congruence.
    - rewrite D. unfold p_enq. destruct (p_fits _ _); auto.
    - rewrite D. subst o v es. unfold refused_request in N3. destruct (p_fits [] (s_mac (w_st w))) eqn:Ef; [|congruence].
      cbn [set_mac_save_dev_time mac_save_dev_time mac_cbs]. split; [|reflexivity]. unfold p_enq. rewrite Ef. reflexivity.
    - exfalso. exact (N2 c A).
    - rewrite F0 in T2. discriminate.
    - destruct F as (_ & F1 & F2 & F3 & _). rewrite ?F1, ?F2, ?F3. auto. }
  assert (Q0 : ph w' = TX -> ph w <> TX -> tx_frames es <> []).
  { intros X Y. destruct P as [r A B C D|fr pw f A B C D F (pre & G) _ _ _ _ _ _|m A B C D F G K|m A B C D F G|m pre rd e t vw A B C D F G _ _ _ _ _ _|t A B C D|m A B C D _|A B _ _ _ _ _]; try congruence.
    - rewrite G, tx_frames_app. destruct (tx_frames pre); discriminate.
    - exfalso. unfold ph, stk in X. rewrite G in X. discriminate X.
    - exfalso. unfold ph, stk in *. congruence.
    - exfalso. unfold ph, stk in *. congruence.
    - exfalso. destruct B. congruence. }
  destruct (phase_times _ _ _ _ _ _ P) as [(P1 & P2 & P3 & P4 & m & P5 & P6)|(P1 & P2)].
  - split; [|split; [exact Q|]].
    + rewrite P2. cbn [tx_done_state s_mac]. unfold tx_done_mac. rewrite Hf. destruct (mac_cbs (s_mac (w_st w))) as [cb|] eqn:Ec; [|exact Ec].
      destruct (has_get_device_time cb); exact Ec.
    + left. split; [exact P1|]. unfold ph, stk. rewrite P2. discriminate.
  - destruct (Tm P1 P2) as (T1 & T2). split; [exact T1|]. split; [exact Q|].
    assert (Dec : ph w = TX \/ ph w <> TX) by (destruct (ph w); auto; right; discriminate).
    assert (Dec' : ph w' = TX \/ ph w' <> TX) by (destruct (ph w'); auto; right; discriminate).
    destruct Dec as [D1|D1], Dec' as [D2|D2].
    + right. split; [exact P1|]. split; [exact T2|]. tauto.
    + left. auto.
    + exfalso. exact (Q0 D2 D1 Ht).
    + right. split; [exact P1|]. split; [exact T2|]. tauto.
Qed.

Definition quiet (ops : list op) (tr : list entry) : Prop :=
  tx_frames (all_evs tr) = [] /\ Forall (fun o => (forall r, o <> OInit r) /\ (forall c, o <> OSetHandlers c)) ops /\ ~ In refused_request tr.
Lemma quiet_cons o ops v es tr : quiet (o :: ops) ((o, v, es) :: tr) ->
  tx_frames es = [] /\ ((forall r, o <> OInit r) /\ (forall c, o <> OSetHandlers c)) /\ (o, v, es) <> refused_request /\ quiet ops tr.
Proof.
  intros (A & B & C). unfold all_evs in A. cbn [flat_map] in A. rewrite tx_frames_app in A. apply app_eq_nil in A. destruct A as (A1 & A2).
  inversion B as [|? ? B1 B2]; subst. split; [exact A1|]. split; [exact B1|]. split; [intro Q; apply C; left; exact Q|].
  split; [exact A2|]. split; [exact B2|]. intro Q. apply C. right. exact Q.
Qed.
Lemma quiet_run E : env_ok E -> forall w ops tr w', exec E w ops tr w' -> Inv (w_st w) -> Forall op_wf ops -> quiet ops tr ->
  mac_save_dev_time (s_mac (w_st w)) = true -> (ph w <> TX \/ ph w' = TX) ->
  mac_cbs (s_mac (w_st w')) = mac_cbs (s_mac (w_st w)) /\ (exists q, fopts w' = fopts w ++ q) /\
  times (all_evs tr) = [] /\ mac_save_dev_time (s_mac (w_st w')) = true /\ (ph w' = TX <-> ph w = TX).
Proof.
  intros HE w ops tr w' Hx. induction Hx as [w|w o ops v es w1 tr w2 H Hx IH]; intros HI Hw Hq Hf Hp.
  { split; [reflexivity|]. split; [exists []; rewrite app_nil_r; reflexivity|]. split; [reflexivity|]. split; [exact Hf|tauto]. }
  inversion Hw as [|? ? W1 W2]; subst. destruct (quiet_cons _ _ _ _ _ Hq) as (A & (B1 & B2) & C & D).
  pose proof (step_Inv E w o v es w1 HE HI W1 H) as HI1.
  destruct (quiet_step E w o v es w1 HE HI W1 H A B1 B2 C Hf) as (K1 & (q1 & K2) & [(K3 & K4)|(K3 & K4 & K5)]).
  - exfalso. destruct Hp as [Hp|Hp]; [exact (Hp K3)|].
    assert (Z0 : forall w ops tr w', exec E w ops tr w' -> Inv (w_st w) -> Forall op_wf ops -> quiet ops tr -> ph w <> TX -> ph w' <> TX).
    { clear - HE. intros w ops tr w' Hx. induction Hx as [w|w o ops v es w1 tr w2 H Hx IH]; intros HI Hw Hq Hp; [exact Hp|].
      inversion Hw as [|? ? W1 W2]; subst. destruct (quiet_cons _ _ _ _ _ Hq) as (A & (B1 & B2) & C & D).
      apply IH; [exact (step_Inv E w o v es w1 HE HI W1 H)|exact W2|exact D|]. intro X.
      destruct (step_phase E w o v es w1 HE HI W1 H) as (P & _).
      destruct P as [r Q|fr pw f _ _ _ _ _ (pre & G) _ _ _ _ _ _|m _ _ Q _ _ _ _|m _ _ _ _ _ G|m pre rd e t vw _ _ _ Q _ _ _ _ _ _ _ _|t _ _ _ G|m _ _ _ G _|_ B _ _ _ _ _]; try congruence.
      - rewrite G, tx_frames_app in A. destruct (tx_frames pre); discriminate A.
      - unfold ph, stk in X. rewrite G in X. discriminate X.
      - unfold ph, stk in *. congruence.
      - unfold ph, stk in *. congruence.
      - destruct B. congruence. }
    exact (Z0 _ _ _ _ Hx HI1 W2 D K4 Hp).
  - destruct IH as (L1 & (q2 & L2) & L3 & L4 & L5); [exact HI1|exact W2|exact D|exact K4|tauto|].
    split; [congruence|]. split; [exists (q1 ++ q2); rewrite L2, K2, app_assoc; reflexivity|].
    split; [|split; [exact L4|tauto]]. unfold all_evs. cbn [flat_map]. rewrite times_app. change (evs_of (o, v, es)) with es. rewrite K3. exact L3.
Qed.

(** Holds when the request is not made during a transmission, no join-request is
    sent before the uplink, and no further request is refused. *)
Theorem C23_sample_partial : forall E w w1 ops1 tr1 w2 o v es w3 ops2 tr2 w4 m es' w5 f,
  C23_setting E w w1 ops1 tr1 w2 o v es w3 ops2 tr2 w4 m es' w5 f ->
  uw_state (stk w) <> TX -> tx_frames (all_evs tr1) = [] -> ~ In refused_request (tr1 ++ tr2) ->
  C23_claim f tr1 es tr2 es'.
Proof.
  intros E w w1 ops1 tr1 w2 o v es w3 ops2 tr2 w4 m es' w5 f S Hs Ht Hn. destruct S as [HE Hr (cb & Hcb & Hg) Hq W1 X1 _ Ho H Hd W2 X2 N2 Hwm Tx Hm H' Hni].
  pose proof (reach_Inv E w HE Hr) as HI. apply Forall_app in Hni. destruct Hni as (Hn1 & Hn2).
  pose proof (step_Inv E w ODevTimeReq _ _ w1 HE HI I Hq) as HI1. pose proof (exec_Inv E w1 _ _ _ HE HI1 W1 X1) as HI2.
  pose proof (step_Inv E w2 _ _ _ w3 HE HI2 Ho H) as HI3. pose proof (exec_Inv E w3 _ _ _ HE HI3 W2 X2) as HI4.
  assert (R : mac_save_dev_time (s_mac (w_st w1)) = true /\ mac_cbs (s_mac (w_st w1)) = Some cb /\ In 13 (fopts w1) /\ ph w1 = ph w).
  { destruct (step_phase E w ODevTimeReq _ _ w1 HE HI I Hq) as (P & _).
    assert (Hp : ph w1 = ph w).
    { destruct P as [r Q|fr pw f0 [Q|Q] _ _ _ _ _ _ _ _ _ _ _|m0 Q|m0 Q|m0 pre rd e t vw Q|t Q|m0 Q|_ B _ _ _ _ _]; try discriminate Q. apply B. }
    destruct (step_mac E w ODevTimeReq _ _ w1 HE HI I Hq) as [_ _ _ _ Q|r Q|f0 Q|Q|A B C D|c Q|m0 Q|m0 Q]; try discriminate Q; [congruence|].
    injection B as B. rewrite D. rewrite <- B. cbn [set_mac_save_dev_time mac_save_dev_time mac_cbs]. split; [reflexivity|].
    split; [unfold p_enq; destruct (p_fits _ _); exact Hcb|]. split; [|exact Hp].
    destruct (C09_requests E w ODevTimeReq 13 HE Hr) as (w1' & Y1 & Y2); [auto|]. rewrite Hq in Y1. injection Y1 as Y1 <-.
    rewrite <- Y1 in Y2. rewrite Y2. apply in_or_app. right. left. reflexivity. }
  destruct R as (R1 & R2 & R3 & R4).
  assert (Q1 : quiet ops1 tr1). { split; [exact Ht|]. split; [exact Hn1|]. intro Q. apply Hn, in_or_app. auto. }
  assert (Q2 : quiet ops2 tr2). { split; [exact N2|]. split; [exact Hn2|]. intro Q. apply Hn, in_or_app. auto. }
  destruct (quiet_run E HE _ _ _ _ X1 HI1 W1 Q1 R1) as (K1 & (q & K2) & K3 & K4 & K5); [left; rewrite R4; exact Hs|].
  assert (U : fr_fopts f = fopts w2 /\ s_mac (w_st w3) = set_mac_buf_pos 0 (s_mac (w_st w2))).
  { destruct (step_mac E w2 _ _ _ w3 HE HI2 Ho H) as [_ Q|r A B _|f0 _ A B C|A _ B _|A _ B _|c A B _|m0 _ _ _ _ _ _ Q|m0 _ _ _ Q]; try congruence; try (subst o es; discriminate Hd).
    split; congruence. }
  destruct U as (U1 & U2).
  assert (T : times es = []).
  { destruct (step_phase E w2 _ _ _ w3 HE HI2 Ho H) as (P & _). destruct (phase_times _ _ _ _ _ _ P) as [(_ & _ & P3 & _ & m0 & -> & _)|(P1 & _)]; [|exact P1].
    exfalso. destruct (step_mac E w2 _ _ _ w3 HE HI2 Ho H) as [_ Q|r A B _|f0 A _ _ _|A _ B _|A _ B _|c A B _|m1 _ _ _ _ _ _ Q|m1 _ _ _ Q]; try congruence; discriminate A. }
  destruct (quiet_run E HE _ _ _ _ X2 HI3 W2 Q2) as (L1 & _ & L3 & L4 & L5); [rewrite U2; exact K4|right; exact Tx|].
  split; [rewrite U1, K2; apply in_or_app; auto|]. split; [exact K3|]. split; [exact T|]. split; [exact L3|].
  destruct (step_phase E w4 _ _ _ w5 HE HI4 Hwm H') as (P & _).
  destruct P as [r Q|fr pw f0 [Q|Q] _ _ _ _ _ _ _ _ _ _ _|m0 Q _ _ _ _ G _|m0 _ _ Q|m0 pre rd e t vw _ _ [Q|Q]|t Q|m0 Q _ _ _ Z0|_ _ Q]; unfold ph in *; try discriminate Q; try congruence.
  - subst es'. unfold tx_done_evs. rewrite times_app. change (times (tx_done_evs1 (w_st w4))) with (@nil Z). unfold tx_done_time. rewrite L4.
    assert (Ec : mac_cbs (s_mac (w_st w4)) = Some cb) by (rewrite L1, U2; cbn [set_mac_buf_pos mac_cbs]; rewrite K1; exact R2).
    rewrite Ec, Hg. eexists. reflexivity.
  - injection Q as <-. exfalso. destruct Z0 as [Z0|[Z0|[(_ & Z0)|([Z0|Z0] & _)]]]; congruence.
Qed.
Print Assumptions C23_sample_partial.

(** finding such settings by running *)
Definition plain_op (o : op) : bool := match o with OInit _ | OSetHandlers _ => false | _ => true end.
Definition c23b (E : env) (pre ops1 : list op) (o : op) (ops2 : list op) (m : Z)
    (P : world -> list entry -> list ev -> list entry -> list ev -> list Z -> bool) : bool :=
  forallb op_wfb pre && runs E pre && forallb op_wfb ops1 && forallb op_wfb ops2 && op_wfb o && op_wfb (OIrq m) &&
  forallb plain_op (ops1 ++ ops2) && Z.testbit m 2 &&
  match mac_cbs (s_mac (w_st (after E pre))) with Some cb => has_get_device_time cb | None => false end &&
  match step E (after E pre) ODevTimeReq with
  | Some (VBool true, [], w1) =>
      match run E w1 ops1 with
      | Some (tr1, w2) =>
          is_nil (data_frames tr1) &&
          match step E w2 o with
          | Some (v, es, w3) =>
              match data_frames [(o, v, es)], run E w3 ops2 with
              | [f], Some (tr2, w4) =>
                  is_nil (tx_frames (all_evs tr2)) && match uw_state (stk w4) with TX => true | _ => false end &&
                  match step E w4 (OIrq m) with
                  | Some (VUnit, es', w5) => P (after E pre) tr1 es tr2 es' f
                  | _ => false
                  end
              | _, _ => false
              end
          | None => false
          end
      | None => false
      end
  | _ => false
  end.
Lemma is_nil_eq {A} (l : list A) : is_nil l = true -> l = [].
Proof. destruct l; [reflexivity|discriminate]. Qed.
Lemma wf_all ops : forallb op_wfb ops = true -> Forall op_wf ops.
Proof. intro H. apply Forall_forall. intros x Hx. apply op_wfb_ok. rewrite forallb_forall in H. apply H. exact Hx. Qed.
Lemma c23_intro E pre ops1 o ops2 m P : env_ok E -> c23b E pre ops1 o ops2 m P = true ->
  exists w w1 tr1 w2 v es w3 tr2 w4 es' w5 f, C23_setting E w w1 ops1 tr1 w2 o v es w3 ops2 tr2 w4 m es' w5 f /\ P w tr1 es tr2 es' f = true.
Proof.
  intros HE H. unfold c23b in H. apply andb_prop in H. destruct H as [H H1]. apply andb_prop in H. destruct H as [H Hcb].
  apply andb_prop in H. destruct H as [H Hm]. apply andb_prop in H. destruct H as [H Hpl]. apply andb_prop in H. destruct H as [H Hwm].
  apply andb_prop in H. destruct H as [H Hwo]. apply andb_prop in H. destruct H as [H Hw2]. apply andb_prop in H. destruct H as [H Hw1].
  destruct (step E (after E pre) ODevTimeReq) as [[[[ |[|]| | ] [|? ?]] w1]|] eqn:E1; try discriminate H1.
  destruct (run E w1 ops1) as [[tr1 w2]|] eqn:E2; [|discriminate H1]. apply andb_prop in H1. destruct H1 as [N1 H1].
  destruct (step E w2 o) as [[[v es] w3]|] eqn:E3; [|discriminate H1].
  destruct (data_frames [(o, v, es)]) as [|f [|? ?]] eqn:E4; try discriminate H1.
  destruct (run E w3 ops2) as [[tr2 w4]|] eqn:E5; [|discriminate H1]. apply andb_prop in H1. destruct H1 as [N2 H1].
  apply andb_prop in N2. destruct N2 as [N2 N3].
  destruct (step E w4 (OIrq m)) as [[[[ | | | ] es'] w5]|] eqn:E6; try discriminate H1.
  exists (after E pre), w1, tr1, w2, v, es, w3, tr2, w4, es', w5, f. split; [|exact H1].
  constructor; try assumption.
  - apply after_reach. exact H.
  - destruct (mac_cbs _) as [cb|]; [eauto|discriminate].
  - apply wf_all. exact Hw1.
  - apply run_exec. exact E2.
  - apply is_nil_eq. exact N1.
  - apply op_wfb_ok. exact Hwo.
  - apply wf_all. exact Hw2.
  - apply run_exec. exact E5.
  - apply is_nil_eq. exact N2.
  - apply op_wfb_ok. exact Hwm.
  - destruct (uw_state (stk w4)); congruence.
  - apply Forall_forall. intros x Hx. rewrite forallb_forall in Hpl. specialize (Hpl x Hx). destruct x; try discriminate Hpl; split; discriminate.
Qed.
Definition timing : list op := abp 0 7 ++ [OSetHandlers (Some (Mk_mac_callbacks false false true true))].
Definition not_tx (w : world) : bool := match uw_state (stk w) with TX => false | _ => true end.
Definition is_refused (t : entry) : bool := match t with (ODevTimeReq, VBool false, []) => true | _ => false end.
Definition none_refused (tr : list entry) : bool := forallb (fun t => negb (is_refused t)) tr.
Lemma none_refused_ok tr : none_refused tr = true -> ~ In refused_request tr.
Proof. intros H Q. unfold none_refused in H. rewrite forallb_forall in H. specialize (H _ Q). discriminate H. Qed.
Example C23_sample_case : exists E w w1 ops1 tr1 w2 o v es w3 ops2 tr2 w4 m es' w5 f,
  C23_setting E w w1 ops1 tr1 w2 o v es w3 ops2 tr2 w4 m es' w5 f /\ uw_state (stk w) <> TX /\ tx_frames (all_evs tr1) = [] /\
  ~ In refused_request (tr1 ++ tr2) /\ (length tr1 = 1 /\ length tr2 = 2)%nat.
Proof.
  destruct (c23_intro (demo [] []) timing [OLinkCheckReq] (OSend 1 [7] false) [OIrq 3; ODevTimeReq] 4
    (fun w tr1 es tr2 es' f => not_tx w && is_nil (tx_frames (all_evs tr1)) && none_refused (tr1 ++ tr2) && Nat.eqb (length tr1) 1 && Nat.eqb (length tr2) 2))
    as (w & w1 & tr1 & w2 & v & es & w3 & tr2 & w4 & es' & w5 & f & S & F); [apply demo_ok|vm_compute; reflexivity|].
  ands F. exists (demo [] []), w, w1, [OLinkCheckReq], tr1, w2, (OSend 1 [7] false), v, es, w3, [OIrq 3; ODevTimeReq], tr2, w4, 4, es', w5, f.
  split; [exact S|]. split; [unfold not_tx in F; destruct (uw_state (stk w)); discriminate|].
  split; [apply is_nil_eq; assumption|]. split; [apply none_refused_ok; assumption|]. split; apply Nat.eqb_eq; assumption.
Qed.

(** a request made while an earlier uplink is still on air is sampled at the end of that one *)
Theorem C23_refuted : ~ (forall E w w1 ops1 tr1 w2 o v es w3 ops2 tr2 w4 m es' w5 f,
  C23_setting E w w1 ops1 tr1 w2 o v es w3 ops2 tr2 w4 m es' w5 f ->
  tx_frames (all_evs tr1) = [] -> ~ In refused_request (tr1 ++ tr2) -> C23_claim f tr1 es tr2 es').
Proof.
  intro C.
  destruct (c23_intro (demo [] []) (timing ++ [OSend 1 [7] false]) [OIrq 4; OIrq 1; OIrq 1] (OSend 1 [8] false) [] 4
    (fun w tr1 es tr2 es' f => is_nil (tx_frames (all_evs tr1)) && none_refused (tr1 ++ tr2) && negb (is_nil (times (all_evs tr1)))))
    as (w & w1 & tr1 & w2 & v & es & w3 & tr2 & w4 & es' & w5 & f & S & F); [apply demo_ok|vm_compute; reflexivity|].
  ands F. destruct (C _ _ _ _ _ _ _ _ _ _ _ _ _ _ _ _ _ S) as (_ & C1 & _); [apply is_nil_eq; assumption|apply none_refused_ok; assumption|].
  rewrite C1 in *. discriminate.
Qed.
Print Assumptions C23_refuted.
(** a join-request between the request and the uplink is sampled instead *)
Theorem C23_join_refuted : ~ (forall E w w1 ops1 tr1 w2 o v es w3 ops2 tr2 w4 m es' w5 f,
  C23_setting E w w1 ops1 tr1 w2 o v es w3 ops2 tr2 w4 m es' w5 f ->
  uw_state (stk w) <> TX -> ~ In refused_request (tr1 ++ tr2) -> C23_claim f tr1 es tr2 es').
Proof.
  intro C.
  destruct (c23_intro (demo [] []) timing [OJoin; OIrq 4; OIrq 1; OIrq 1] (OSend 1 [8] false) [] 4
    (fun w tr1 es tr2 es' f => not_tx w && none_refused (tr1 ++ tr2) && negb (is_nil (times (all_evs tr1)))))
    as (w & w1 & tr1 & w2 & v & es & w3 & tr2 & w4 & es' & w5 & f & S & F); [apply demo_ok|vm_compute; reflexivity|].
  ands F. destruct (C _ _ _ _ _ _ _ _ _ _ _ _ _ _ _ _ _ S) as (_ & C1 & _); [unfold not_tx in F; destruct (uw_state (stk w)); discriminate|apply none_refused_ok; assumption|].
  rewrite C1 in *. discriminate.
Qed.
Print Assumptions C23_join_refuted.
(** a later request that is refused (queue full) cancels the sampling of the accepted one *)
Theorem C23_stale_refuted : ~ (forall E w w1 ops1 tr1 w2 o v es w3 ops2 tr2 w4 m es' w5 f,
  C23_setting E w w1 ops1 tr1 w2 o v es w3 ops2 tr2 w4 m es' w5 f ->
  uw_state (stk w) <> TX -> tx_frames (all_evs tr1) = [] -> C23_claim f tr1 es tr2 es').
Proof.
  intro C.
  destruct (c23_intro (demo [] []) timing (repeat OLinkCheckReq 14 ++ [ODevTimeReq]) (OSend 1 [8] false) [] 4
    (fun w tr1 es tr2 es' f => not_tx w && is_nil (tx_frames (all_evs tr1)) && is_nil (times es')))
    as (w & w1 & tr1 & w2 & v & es & w3 & tr2 & w4 & es' & w5 & f & S & F); [apply demo_ok|vm_compute; reflexivity|].
  ands F. destruct (C _ _ _ _ _ _ _ _ _ _ _ _ _ _ _ _ _ S) as (_ & _ & _ & _ & t & C1); [unfold not_tx in F; destruct (uw_state (stk w)); discriminate|apply is_nil_eq; assumption|].
  rewrite C1 in *. discriminate.
Qed.
Print Assumptions C23_stale_refuted.

(** ** C24 Optional MAC handlers are really optional *)
(** A request without handlers crashes at the end of the next transmission. *)
Theorem C24_refuted : ~ (forall E w o k, env_ok E -> reachable E w -> op_wf o -> call E o (w_hist w) (w_st w) = Undef k -> k <> UB_null).
Proof.
  intro C. set (E := demo [] []). set (ops := abp 0 7 ++ [ODevTimeReq; OSend 1 [7] false]).
  assert (X : forallb op_wfb ops && runs E ops = true) by (vm_compute; reflexivity).
  apply (C E (after E ops) (OIrq 4) UB_null); [apply demo_ok|apply after_reach; exact X|apply op_wfb_ok; reflexivity|vm_compute; reflexivity|reflexivity].
Qed.
Print Assumptions C24_refuted.
(** A missing handler is dereferenced exactly in that case: no handler structure
    is installed, an accepted DeviceTimeReq is pending, and a transmission ends. *)
Theorem C24_null_partial : forall E ops tr w m,
  env_ok E -> Forall op_wf ops -> exec E world0 ops tr w -> op_wf (OIrq m) -> e_strict_shl E = false ->
  (call E (OIrq m) (w_hist w) (w_st w) = Undef UB_null <->
   handlers tr = None /\ time_pending tr = true /\ uw_state (stk w) = TX /\ Z.testbit m 2 = true).
Proof.
  intros E ops tr w m HE Ho Hx Hw Hs. pose proof (exec_Inv E world0 _ _ _ HE power_on_Inv Ho Hx) as HI.
  destruct (exec_time E ops tr w HE Ho Hx) as (T1 & T2 & _). rewrite (irq_undef E m _ _ _ HE Hs HI), T1, T2. unfold stk. tauto.
Qed.
Print Assumptions C24_null_partial.
(** Nothing else dereferences a missing handler; so with a handler structure
    (whatever subset of handlers it provides), or without time requests, none is. *)
Theorem C24_safe_partial : forall E ops tr w o,
  env_ok E -> Forall op_wf ops -> exec E world0 ops tr w -> op_wf o ->
  handlers tr <> None \/ time_pending tr = false ->
  call E o (w_hist w) (w_st w) <> Undef UB_null.
Proof.
  intros E ops tr w o HE Ho Hx Hw Hor Q. pose proof (exec_Inv E world0 _ _ _ HE power_on_Inv Ho Hx) as HI.
  destruct (exec_time E ops tr w HE Ho Hx) as (T1 & T2 & _).
  destruct (call_undef E o _ _ _ HE HI Hw Q) as [(_ & X)|[(m & _ & _ & _ & _ & A & B)|(e & b & n & p & _ & X)]].
  - discriminate X.
  - rewrite T1 in A. rewrite T2 in B. destruct Hor; congruence.
  - destruct X as [X|[X|X]]; discriminate X.
Qed.
Print Assumptions C24_safe_partial.
(** the pending request is answered without a handler structure only when no time was requested *)
Example C24_safe_case : run_of (demo [] [(dl 8 false 0 ([13] ++ le 4 1400000000 ++ [128; 2; 5; 1; 6]) None, 9)]) []
  (abp 0 7 ++ [OLinkCheckReq; OSend 1 [7] false; OIrq 4; OIrq 2])
  (fun w tr w' => match handlers tr with None => true | _ => false end && negb (time_pending tr) && (len (fopts w') =? 3)).
Proof. show_run. Qed.
(** a handler structure with no handler at all and a pending time request *)
Example C24_empty_case : run_of (demo [] []) []
  (abp 0 7 ++ [OSetHandlers (Some (Mk_mac_callbacks false false false false)); ODevTimeReq; OSend 1 [7] false])
  (fun w tr w' => match handlers tr with Some _ => true | _ => false end && time_pending tr && match uw_state (stk w') with TX => true | _ => false end).
Proof. show_run. Qed.
