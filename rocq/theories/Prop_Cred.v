(** Prop_Cred.v -- data frames and the activation of the device (C92), and the end of the
    uplink counter (C76). *)
From Verif Require Import LUp4 LClock LJoin2 LCfg PStrict Demo Prop_Uplink Prop_Down Prop_Join Prop_App Prop_Adr Prop_Key Prop_Long SpecApp SpecCred.

Definition creds_of (w : world) : creds := (dev_addr (ses w), nwk_s_key (ses w), app_s_key (ses w)).
Lemma creds_snoc E tr t : creds_after E (tr ++ [t]) = cred_step E tr (creds_after E tr) t.
Proof.
  unfold creds_after. rewrite fold_left_app. cbn [fold_left snd].
  assert (F : forall l b c, fst (fold_left (fun bc t => (fst bc ++ [t], cred_step E (fst bc) (snd bc) t)) l (b, c)) = b ++ l).
  { induction l as [|x l IH]; intros b c; cbn [fold_left fst snd]; [symmetry; apply app_nil_r|]. rewrite IH, <- app_assoc. reflexivity. }
  rewrite F. reflexivity.
Qed.
Lemma exec_creds E ops tr w : env_ok E -> Forall op_wf ops -> exec E world0 ops tr w -> creds_of w = creds_after E tr.
Proof.
  intros HE. revert ops tr w. apply (exec_snoc_ind E (fun tr w => creds_of w = creds_after E tr) HE); [reflexivity|].
  intros ops tr w o v es w' Hw Hx HI Hr A Hwo H. rewrite creds_snoc.
  assert (Hn : forall o', o = o' -> (match o' with OInit _ | OSetSession _ _ _ _ _ => True | _ => False end) -> reads es = []).
  { intros o' <- Ho. pose proof (step_inv E w o v es w' HE HI Hwo H) as S. destruct o; try contradiction; inversion S as [? ? ? X| | | | | | | | | |]; subst; try reflexivity; cbn [simple] in X; discriminate. }
  destruct (accepts_join_b es) eqn:Ej.
  - assert (Hc : exists vw, In (ERR_NO, MTYPE_JOIN_ACCEPT, vw) (callbacks es)).
    { unfold accepts_join_b in Ej. apply existsb_exists in Ej as ([[e t] vw] & Hin & Hb). destruct e; try discriminate. apply Z.eqb_eq in Hb. subst t. exists vw. exact Hin. }
    destruct Hc as (vw & Hc).
    destruct (C10_downlink_authentic E w o v es w' _ _ HE Hr Hwo H Hc) as (m & -> & Hrx & Hcb & Hcase).
    assert (Hj : joining w = true).
    { destruct Hcase as [(J & _)|(_ & Ht & _ & (_ & Hd & _) & _)]; [exact J|]. exfalso. unfold MTYPE_JOIN_ACCEPT in Ht. unfold fr_down in Hd. lia. }
    destruct (C26_accepted_fields E w m v es w' vw HE Hr Hwo Hrx Hj H Hcb) as (_ & an & ni & addr & dl & rxd & cf & mic & HD & Lm & Hcf & Hin').
    cbn [cred_step]. rewrite Ej, (irq_reads E w m v es w' HE HI Hwo H Hrx). unfold join_creds.
    rewrite <- (exec_app_key E ops tr w HE Hw Hx). destruct (exec_join_nonce E ops tr w HE Hw Hx) as [N1 N2]. destruct (last_join_request tr) as [f|] eqn:Ef; [|destruct (N1 Hj eq_refl)].
    rewrite <- (N2 f eq_refl). set (D := ja_clear E (app_key w) (rx_data (received E w))) in *.
    pose proof (step_Inv E w _ v es w' HE HI Hwo H) as HI'.
    assert (B : 0 <= dev_addr (ses w') < 4294967296) by apply (sk_addr _ (iv_ses _ HI')).
    assert (S1 : slice D 1 6 = le 3 an ++ le 3 ni) by (rewrite HD; reflexivity).
    assert (S2 : slice D 7 4 = le 4 addr) by (rewrite HD; reflexivity).
    destruct Hin' as [_ I1 _ I2 I3 _ _ _ _ _ _ _ _]. unfold creds_of. rewrite I2, I3, S2. rewrite I1 in B. rewrite I1, unle_le. change (256 ^ Z.of_nat 4) with 4294967296. rewrite Z.mod_small by exact B.
    unfold key_block, session_key. rewrite S1, <- !app_assoc. reflexivity.
  - destruct (match o with OInit _ | OSetSession _ _ _ _ _ => true | _ => false end) eqn:Eo.
    + destruct o; try discriminate; pose proof (C69_session E w _ v es w' HE Hr Hwo H (Hn _ eq_refl I)) as S; cbn [session_call cred_step] in *; unfold creds_of; rewrite S; reflexivity.
    + assert (N : ~ new_session_entry (o, v, es)) by (unfold new_session_entry; cbn [fst snd]; destruct o; try discriminate; rewrite <- accepts_b, Ej; discriminate).
      destruct (step_ses E w o v es w' HE HI Hwo H N) as [[S1 S2 S3] _]. unfold creds_of in *. rewrite S1, S2, S3, A. destruct o; try discriminate; cbn [cred_step]; rewrite Ej; reflexivity.
Qed.

(** ** C92 *)
(** Every data uplink is made with the credentials of the last activation, or with zeros if
    there was none since uwan_init. Missing against the full statement: that there was one. *)
Theorem C92_uplink_partial E ops tr w o v es w' f : env_ok E -> Forall op_wf ops -> exec E world0 ops tr w -> op_wf o -> step E w o = Some (v, es, w') ->
  In f (data_frames [(o, v, es)]) ->
  let '(addr, nwk, app) := creds_after E tr in
  exists cnt confirm adr req ack fo port payload, f = uplink_frame (e_aes E) (e_cmac E) nwk app addr cnt confirm adr req ack fo port payload.
Proof.
  intros HE Hw Hx Hwo H Hf. rewrite <- (exec_creds E ops tr w HE Hw Hx). unfold creds_of. assert (Hr : reachable E w) by (exists ops, tr; auto).
  assert (Hj : o <> OJoin) by (intros ->; destruct Hf).
  assert (Hf' : In f (tx_frames es)) by (unfold data_frames in Hf; cbn [flat_map fst snd] in Hf; rewrite app_nil_r in Hf; destruct o; try exact Hf; contradiction).
  destruct (C01_every_uplink_pf E w o v es w' HE Hr Hwo Hj H) as [Hz|(cf & p & d & _ & _ & Hz)]; rewrite Hz in Hf'; [destruct Hf'|]. destruct Hf' as [<-|[]]. repeat eexists.
Qed.
Print Assumptions C92_uplink_partial.
(** Every data downlink handed to the application is genuine for them. *)
Theorem C92_downlink_partial E ops tr w o v es w' t view : env_ok E -> Forall op_wf ops -> exec E world0 ops tr w -> op_wf o -> step E w o = Some (v, es, w') ->
  In (ERR_NO, t, view) (callbacks es) -> t <> MTYPE_JOIN_ACCEPT -> exists d c, reads es = [d] /\ genuine E (creds_after E tr) d c.
Proof.
  intros HE Hw Hx Hwo H Hc Ht. rewrite <- (exec_creds E ops tr w HE Hw Hx). assert (Hr : reachable E w) by (exists ops, tr; auto).
  destruct (C10_downlink_authentic E w o v es w' _ _ HE Hr Hwo H Hc) as (m & -> & Hrx & _ & Hcase).
  rewrite (irq_reads E w m v es w' HE (reach_Inv E w HE Hr) Hwo H Hrx). destruct Hcase as [(_ & -> & _)|(_ & _ & _ & Ha & _)]; [contradiction|]. eexists. eexists. split; [reflexivity|exact Ha].
Qed.
Print Assumptions C92_downlink_partial.
(** With no activation since uwan_init an accepted payload goes out under the address 0 with
    keys of zeros: everybody can check the MIC and read it. *)
Theorem C92_open_partial E ops tr w port payload confirm es w' : env_ok E -> Forall op_wf ops -> exec E world0 ops tr w -> creds_after E tr = no_creds ->
  op_wf (OSend port payload confirm) -> payload <> [] -> step E w (OSend port payload confirm) = Some (VErr ERR_NO, es, w') ->
  exists f cnt u, tx_frames es = [f] /\ server_receive (e_aes E) (e_cmac E) (repeat 0 16) (repeat 0 16) 0 cnt f = Some u /\ u_data u = Some (port, payload).
Proof.
  intros HE Hw Hx Hn Hwo Hp H. rewrite <- (exec_creds E ops tr w HE Hw Hx) in Hn. injection Hn as N1 N2 N3. assert (Hr : reachable E w) by (exists ops, tr; auto).
  destruct (C02_server_decodes E w port payload confirm es w' HE Hr Hwo H) as (f & Hf & Hs). exists f, (f_cnt_up (ses w)). eexists. split; [exact Hf|].
  rewrite N1, N2, N3 in Hs. split; [exact Hs|]. destruct payload; [contradiction|reflexivity].
Qed.
Print Assumptions C92_open_partial.

(** Refuted: uwan_send_frame does not ask whether the device is activated, and the receive
    path does not either. *)
Lemma run_wf E ops tr w : forallb op_wfb ops = true -> run E world0 ops = Some (tr, w) -> Forall op_wf ops /\ exec E world0 ops tr w.
Proof. intros Ho Hr. split; [apply Forall_forall; intros o Hin; apply op_wfb_ok; rewrite forallb_forall in Ho; auto|apply run_exec; exact Hr]. Qed.
Definition cred_case (E : env) (ops : list op) (o : op) (P : list entry -> list ev -> bool) : Prop :=
  exists tr w v es w', env_ok E /\ Forall op_wf ops /\ exec E world0 ops tr w /\ op_wf o /\ step E w o = Some (v, es, w') /\ P tr es = true.
Lemma cred_case_intro E ops o P : env_ok E -> forallb op_wfb ops && op_wfb o &&
  match run E world0 ops with Some (tr, w) => match step E w o with Some (v, es, w') => P tr es | None => false end | None => false end = true -> cred_case E ops o P.
Proof.
  intros HE H. apply andb_prop in H as [H K]. apply andb_prop in H as [H1 H2]. destruct (run E world0 ops) as [[tr w]|] eqn:R; [|discriminate]. destruct (run_wf E ops tr w H1 R) as [Ho Hx].
  destruct (step E w o) as [[[v es] w']|] eqn:S; [|discriminate]. exists tr, w, v, es, w'. repeat (split; [assumption||(apply op_wfb_ok; exact H2)|]). exact K.
Qed.
Ltac show_cred := apply cred_case_intro; [apply demo_ok|vm_compute; reflexivity].
Theorem C92_uplink_refuted : ~ (forall E ops tr w o v es w', env_ok E -> Forall op_wf ops -> exec E world0 ops tr w -> op_wf o -> step E w o = Some (v, es, w') ->
  data_frames [(o, v, es)] <> [] -> joined_after tr = true).
Proof.
  intro C. assert (K : cred_case (demo [] []) [OInit EU868] (OSend 1 [7] false) (fun tr es => negb (joined_after tr) && negb (is_nil (tx_frames es)))) by show_cred.
  destruct K as (tr & w & v & es & w' & HE & Ho & Hx & W & H & K). apply andb_prop in K as [K1 K2].
  rewrite (C _ _ _ _ _ _ _ _ HE Ho Hx W H) in K1; [discriminate|]. cbn. intro Z. rewrite app_nil_r in Z. rewrite Z in K2. discriminate.
Qed.
Print Assumptions C92_uplink_refuted.
(** a downlink anybody can make, with keys of zeros *)
Definition forged : list Z := downlink_frame toy_aes toy_cmac (repeat 0 16) (repeat 0 16) 0 3 true 0 [] (Some (5, [1; 2; 3])).
Theorem C92_downlink_refuted : ~ (forall E ops tr w o v es w' t view, env_ok E -> Forall op_wf ops -> exec E world0 ops tr w -> op_wf o -> step E w o = Some (v, es, w') ->
  In (ERR_NO, t, view) (callbacks es) -> t <> MTYPE_JOIN_ACCEPT -> joined_after tr = true).
Proof.
  intro C. assert (K : cred_case (demo [] [(forged, 9)]) ([OInit EU868] ++ after_uplink) (OIrq 2) (fun tr es => negb (joined_after tr) &&
    match callbacks es with [(ERR_NO, 5, vw)] => (v_port vw =? 5) && match v_data vw with Some x => list_eqb x [1; 2; 3] | None => false end | _ => false end)) by show_cred.
  destruct K as (tr & w & v & es & w' & HE & Ho & Hx & W & H & K). apply andb_prop in K as [K1 K2].
  destruct (callbacks es) as [|[[e t] vw] l] eqn:Hc; [discriminate|]. destruct e; try discriminate. assert (t = 5) by (destruct t as [|[[|[]|]|[]|]|]; try discriminate; reflexivity). subst t.
  rewrite (C _ _ _ _ _ _ _ _ 5 vw HE Ho Hx W H) in K1; [discriminate|rewrite Hc; left; reflexivity|discriminate].
Qed.
Print Assumptions C92_downlink_refuted.

(** ** Cases *)
Definition cred_is (c d : creds) : bool := let '(a, n, p) := c in let '(a', n', p') := d in (a =? a') && list_eqb n n' && list_eqb p p'.
Definition decodes (c : creds) (cnt : Z) (es : list ev) (d : list Z) : bool :=
  let '(a, n, p) := c in match tx_frames es with [f] => match server_receive toy_aes toy_cmac n p a cnt f with Some u => match u_data u with Some (_, x) => list_eqb x d | None => false end | None => false end | _ => false end.
(** the address and the keys change with the session, by personalisation and over the air *)
Example C92_uplink_case : cred_case (demo [] [(ja_demo, 5)]) (abp 9 0 ++ [OSetOtaa eui1 eui2 k3; OJoin; OIrq 4; OIrq 2]) (OSend 1 [7; 8] true)
  (fun tr es => let c := creds_after (demo [] [(ja_demo, 5)]) tr in negb (cred_is c (637603841, k1, k2)) && negb (cred_is c no_creds) && decodes c 0 es [7; 8] && joined_after tr).
Proof. show_cred. Qed.
(** after a join without answer the old session goes on, although uwan_is_joined() says no *)
Example C92_rejoin_case : cred_case (demo [] []) (abp 9 0 ++ [OSetOtaa eui1 eui2 k3; OJoin; OIrq 4; OIrq 1; OIrq 1]) (OSend 1 [7; 8] true)
  (fun tr es => cred_is (creds_after (demo [] []) tr) (637603841, k1, k2) && decodes (637603841, k1, k2) 9 es [7; 8] && negb (joined_after tr)).
Proof. show_cred. Qed.
(** a second uwan_init forgets the session, and the next uplink is open *)
Example C92_open_case : cred_case (demo [] []) (abp 9 0 ++ [OInit RU864]) (OSend 1 [7; 8] true)
  (fun tr es => cred_is (creds_after (demo [] []) tr) no_creds && decodes no_creds 0 es [7; 8]).
Proof. show_cred. Qed.
Example C92_downlink_case : cred_case (demo [] [(dl 8 true 0 [6] (Some (5, [1; 2; 3])), 9)]) (abp 0 7 ++ after_uplink) (OIrq 2)
  (fun tr es => cred_is (creds_after (demo [] []) tr) (637603841, k1, k2) && cb_is ERR_NO es && joined_after tr).
Proof. show_cred. Qed.
(** the forged downlink is refused as soon as there is a session *)
Example C92_forged_case : cred_case (demo [] [(forged, 9)]) (abp 0 0 ++ after_uplink) (OIrq 2) (fun tr es => negb (cb_is ERR_NO es)).
Proof. show_cred. Qed.

(** ** C76 *)
Lemma exec_same_session E w ops tr w' : env_ok E -> reachable E w -> Forall op_wf ops -> exec E w ops tr w' -> Forall (fun t => ~ new_session_entry t) tr -> same_session (ses w) (ses w').
Proof.
  intros HE Hr Hw H Hn. induction H as [w|w o ops v es w1 tr w2 Hs He IH]; [apply same_session_refl|]. inversion Hw; subst. inversion Hn; subst.
  eapply same_session_trans; [apply (step_ses E w o v es w1 HE (reach_Inv E w HE Hr)); assumption|]. apply IH; try assumption. eapply step_reach; eassumption.
Qed.
(** one uplink of [alone] asks for the keystream block of the counter *)
Lemma alone_block E i a tr w n tr' w' : env_ok E -> e_strict_shl E = false -> 0 <= i < 16 -> steady E i a tr w n -> st_phase w = P_idle -> exec E w (Prop_Adr.times 1 alone) tr' w' ->
  In (app_s_key (ses w), block_a UP (dev_addr (ses w)) (f_cnt_up (ses w)) 1) (up_blocks tr').
Proof.
  intros HE Hs Hi S Hp Hx. assert (W : op_wf (OSend 1 [7] false)) by (apply op_wfb_ok; reflexivity). pose proof (steady_reach _ _ _ _ _ _ S) as Hr.
  assert (Hid : idle w) by (unfold idle; unfold st_phase, ph in Hp; destruct (uw_state (stk w)); discriminate || reflexivity).
  destruct (send_accepted E i w 1 7 HE Hr Hi (sd_chan _ _ _ _ _ _ S) Hid W) as (es & w1 & f & H & Hf).
  pose proof (C01_uplink_layout E w 1 [7] false es w1 HE Hr W H) as L. rewrite Hf in L. injection L as L.
  assert (F : frm_len f = 1%nat).
  { destruct (uplink_parts E 1 [7] false (w_st w) HE (reach_Inv E w HE Hr)) as [_ F]. rewrite L. exact F. }
  destruct (C76_uplink E w (OSend 1 [7] false) _ es w1 f HE Hr W ltac:(discriminate) H Hf) as [A _].
  cbn [Prop_Adr.times repeat concat alone app] in Hx. inversion Hx as [|? ? ? v1 e1 w2 tr2 ? H1 X1 Q1 Q2 Q3 Q4]; subst tr'. rewrite H in H1. injection H1 as <- <- <-.
  unfold up_blocks. cbn [flat_map fst snd]. apply in_or_app. left. rewrite Hf, A.
  rewrite F. left. reflexivity.
Qed.
(** Refuted beyond 2^32 uplinks: nothing stops the device when the counter is used up, and
    the first block is used again. *)
Theorem C76_keystream_refuted : ~ (forall E w ops tr w', env_ok E -> reachable E w -> Forall op_wf ops -> exec E w ops tr w' -> Forall (fun t => ~ new_session_entry t) tr ->
  NoDup (up_blocks tr)).
Proof.
  intro C. set (E := demo [] []). assert (HE : env_ok E) by apply demo_ok. assert (Hs : e_strict_shl E = false) by reflexivity.
  destruct (steady_start E (abp 0 7 ++ [OSetDr 0; OAdrEnable true]) 0 (true, 64) 0 HE) as (tr0 & w0 & S0 & P0); [reflexivity|vm_compute; reflexivity|vm_compute; reflexivity|].
  clearbody E.
  destruct (long_run E 0 _ tr0 w0 0 HE Hs ltac:(lia) S0 P0 1) as (tr1 & w1 & X1 & S1 & P1 & L1 & F1).
  assert (HN : exists N, Z.of_nat N = 4294967295) by (exists (Z.to_nat 4294967295); apply Z2Nat.id; lia). destruct HN as [N HN].
  destruct (long_run E 0 _ _ w1 _ HE Hs ltac:(lia) S1 P1 N) as (tr2 & w2 & X2 & S2 & P2 & L2 & F2).
  destruct (long_run E 0 _ _ w2 _ HE Hs ltac:(lia) S2 P2 1) as (tr3 & w3 & X3 & S3 & P3 & L3 & F3).
  assert (Hr : reachable E w0) by exact (steady_reach _ _ _ _ _ _ S0).
  assert (X12 : exec E w0 (Prop_Adr.times 1 alone ++ Prop_Adr.times N alone) (tr1 ++ tr2) w2) by (eapply exec_app; eassumption).
  assert (X : exec E w0 ((Prop_Adr.times 1 alone ++ Prop_Adr.times N alone) ++ Prop_Adr.times 1 alone) ((tr1 ++ tr2) ++ tr3) w3) by (eapply exec_app; eassumption).
  assert (W : forall n, Forall op_wf (Prop_Adr.times n alone)).
  { intro n. unfold Prop_Adr.times. induction n; cbn [repeat concat]; [constructor|]. apply Forall_app. split; [|exact IHn]. unfold alone. repeat (apply Forall_cons; [apply op_wfb_ok; reflexivity|]). constructor. }
  assert (F12 : Forall (fun t => ~ new_session_entry t) (tr1 ++ tr2)) by (apply Forall_app; auto).
  destruct (C03_trace_counters E w0 _ _ w2 HE Hr ltac:(apply Forall_app; auto) X12 F12) as (_ & K & _).
  assert (HI := reach_Inv E w0 HE Hr). assert (B : 0 <= f_cnt_up (ses w0) < 4294967296) by apply (sk_up _ (iv_ses _ HI)).
  replace (Z.of_nat (length (data_frames (tr1 ++ tr2)))) with 4294967296 in K by (unfold data_frames in *; rewrite flat_map_app, app_length, L1, L2; lia).
  replace (f_cnt_up (ses w0) + 4294967296) with (f_cnt_up (ses w0) + 1 * 4294967296) in K by lia. rewrite Z.mod_add, Z.mod_small in K by (exact B || lia).
  assert (SS : same_session (ses w0) (ses w2)) by (eapply exec_same_session; try eassumption; apply Forall_app; auto).
  pose proof (alone_block E 0 _ _ w0 _ _ _ HE Hs ltac:(lia) S0 P0 X1) as I1.
  pose proof (alone_block E 0 _ _ w2 _ _ _ HE Hs ltac:(lia) S2 P2 X3) as I3. destruct SS as [Q1 Q2 Q3]. rewrite K, Q1, Q3 in I3.
  assert (D : NoDup (up_blocks ((tr1 ++ tr2) ++ tr3))) 
    by (refine (C E w0 _ _ w3 HE Hr _ X _); [apply Forall_app; split; [apply Forall_app; auto|auto]|apply Forall_app; auto]).
  unfold up_blocks in *. rewrite flat_map_app in D. rewrite flat_map_app in D. rewrite <- app_assoc in D.
  clear - D I1 I3. apply in_split in I1 as (l1 & l2 & E1). rewrite E1 in D. rewrite <- !app_assoc in D. cbn [app] in D. apply NoDup_remove_2 in D. apply D.
  apply in_or_app. right. apply in_or_app. right. apply in_or_app. right. exact I3.
Qed.
Print Assumptions C76_keystream_refuted.
