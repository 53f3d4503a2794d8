(** Prop_Adr.v -- adaptive data rate: back-off and the ADR bits of an uplink (C37, C38). *)
From Verif Require Import LAdr Prop_Mac Prop_Join Prop_Down Prop_Win.

(** C37: counting from a moment where no uplink was counted yet (power-on, a delivered
    data downlink, uwan_adr_enable or a back-off step), n data uplinks lower the session
    data rate by n / (limit + delay + 1), never below 0, as long as nothing is delivered,
    no LinkADRReq is received and the application sets neither data rate, session nor
    ADR parameters. *)
Theorem C37_backoff : forall E tr0 w ops tr w',
  env_ok E -> counted E tr0 w 0 -> Forall op_wf ops -> exec E w ops tr w' ->
  Forall (fun t => adr_entry t = false) tr ->
  ses_dr (ses w') = Z.max 0 (ses_dr (ses w) - number (data_frames tr) / (adr_limit w + adr_delay w + 1)).
Proof.
  intros E tr0 w ops tr w' HE Hc Ho Hx Hq. pose proof (counted_reach _ _ _ _ HE Hc) as Hr. pose proof (reach_Inv E w HE Hr) as HI.
  destruct (counted_cnt _ _ _ _ HE Hc) as (_ & C0).
  assert (Hd : 0 <= ses_dr (ses w)) by (destruct (iv_ses _ HI); unfold ses; lia).
  assert (Hp : 0 < adr_limit w + adr_delay w + 1) by (destruct (iv_adr _ HI) as [_ L D]; unfold adr_limit, adr_delay, is_byte in *; lia).
  assert (K : backed (adr_limit w + adr_delay w + 1) (ses_dr (ses w)) 0 w).
  { split; [reflexivity|]. rewrite Z.div_0_l, Z.mod_0_l by lia. split; intros; [split; [lia|exact C0]|lia]. }
  pose proof (backed_exec E w ops tr w' HE Hx _ _ 0 HI Ho Hq ltac:(lia) Hd K) as (_ & K1 & K2).
  rewrite Z.add_0_l in K1, K2.
  destruct (Z_lt_ge_dec (number (data_frames tr) / (adr_limit w + adr_delay w + 1)) (ses_dr (ses w))) as [L|L].
  - rewrite (proj1 (K1 L)). lia.
  - rewrite (K2 ltac:(lia)). lia.
Qed.
Print Assumptions C37_backoff.

(** every run has a count, and a delivered data downlink restarts it *)
Theorem C37_counted : forall E ops tr w, env_ok E -> Forall op_wf ops -> exec E world0 ops tr w ->
  exists n, counted E tr w n.
Proof.
  intros E ops tr w HE Ho Hx. revert ops tr w Ho Hx. apply (exec_snoc_ind E (fun tr w => exists n, counted E tr w n) HE).
  - exists 0. constructor.
  - intros ops tr w o v es w' _ _ _ _ (n & K) Hw Hs. eexists. eapply counted_S; eassumption.
Qed.
Print Assumptions C37_counted.
Theorem C37_restart : forall E tr w n m v es w',
  env_ok E -> counted E tr w n -> op_wf (OIrq m) -> step E w (OIrq m) = Some (v, es, w') ->
  delivers E w m es -> counted E (tr ++ [(OIrq m, v, es)]) w' 0 /\ ack_cnt (s_adr (w_st w')) = 0.
Proof.
  intros E tr w n m v es w' HE Hc Hw Hs (J & t & vw & D). pose proof (counted_S E tr w n _ v es w' Hc Hw Hs) as K.
  assert (R : restarts w (OIrq m, v, es) = true) by (cbn [restarts]; rewrite J, (delivered_one _ _ _ _ D); reflexivity).
  rewrite R in K. split; [exact K|apply (counted_cnt _ _ _ _ HE K)].
Qed.
Print Assumptions C37_restart.

(** C38 *)
Theorem C38_adr_bit : forall E w o v es w' f,
  env_ok E -> reachable E w -> op_wf o -> step E w o = Some (v, es, w') -> In f (data_frames [(o, v, es)]) ->
  step E w OAdrIs = Some (VBool (fr_adr f), [], w).
Proof.
  intros E w o v es w' f HE Hr Hw Hs Hf. pose proof (reach_Inv E w HE Hr) as HI.
  assert (A : data_frames [(o, v, es)] = [f]).
  { destruct (step_adr E w o v es w' HE HI Hw Hs) as [b A B C D|l d A B C D|g U A B C D|m A J B C D|m A J B C D|A B C D|A B C D F];
      try (subst es; subst o; destruct Hf; fail); try (rewrite D in Hf; destruct Hf; fail); try (rewrite C in Hf; destruct Hf; fail).
    rewrite A in Hf. destruct Hf as [->|[]]. exact A. }
  destruct (step_bits E w o v es w' f HE HI Hw Hs A) as (B & _). rewrite B.
  destruct w as [s h]. exact (simple_step E (Mk_world s h) OAdrIs _ _ HI I eq_refl).
Qed.
Print Assumptions C38_adr_bit.
(** ADRACKReq exactly: the count is kept modulo 2^32 *)
Theorem C38_ack_req_exact : forall E tr w n o v es w' f,
  env_ok E -> counted E tr w n -> op_wf o -> step E w o = Some (v, es, w') -> In f (data_frames [(o, v, es)]) ->
  (fr_adr_req f = true <-> fr_adr f = true /\ 0 < ses_dr (ses w) /\ adr_limit w <= n mod 2 ^ 32).
Proof.
  intros E tr w n o v es w' f HE Hc Hw Hs Hf. pose proof (counted_reach _ _ _ _ HE Hc) as Hr. pose proof (reach_Inv E w HE Hr) as HI.
  destruct (counted_cnt _ _ _ _ HE Hc) as (N0 & N1). change (2 ^ 32) with 4294967296.
  assert (A : data_frames [(o, v, es)] = [f]).
  { destruct (step_adr E w o v es w' HE HI Hw Hs) as [b A B C D|l d A B C D|g U A B C D|m A J B C D|m A J B C D|A B C D|A B C D F];
      try (subst es; subst o; destruct Hf; fail); try (rewrite D in Hf; destruct Hf; fail); try (rewrite C in Hf; destruct Hf; fail).
    rewrite A in Hf. destruct Hf as [->|[]]. exact A. }
  destruct (step_bits E w o v es w' f HE HI Hw Hs A) as (B & C). rewrite B, C. unfold adr_ack_due. rewrite N1.
  assert (Hd : 0 <= ses_dr (ses w)) by (destruct (iv_ses _ HI); unfold ses; lia). fold (adr_limit w).
  destruct (adr_on w); cbn [andb]; [|split; [discriminate|intros (K & _); discriminate K]].
  destruct (ses_dr (ses w) =? 0) eqn:Z0; cbn [negb andb]; split; intros; try lia; try discriminate.
Qed.
Print Assumptions C38_ack_req_exact.
(** ... which is the count itself up to 2^32 uplinks without restart *)
Theorem C38_ack_req_partial : forall E tr w n o v es w' f,
  env_ok E -> counted E tr w n -> n < 2 ^ 32 -> op_wf o -> step E w o = Some (v, es, w') -> In f (data_frames [(o, v, es)]) ->
  (fr_adr_req f = true <-> fr_adr f = true /\ 0 < ses_dr (ses w) /\ adr_limit w <= n).
Proof.
  intros E tr w n o v es w' f HE Hc Hn Hw Hs Hf. rewrite (C38_ack_req_exact E tr w n o v es w' f HE Hc Hw Hs Hf).
  destruct (counted_cnt _ _ _ _ HE Hc) as (N0 & _). rewrite Z.mod_small by lia. reflexivity.
Qed.
Print Assumptions C38_ack_req_partial.

(** computing the count along a run *)
Fixpoint tally (E : env) (w : world) (ops : list op) (n : Z) : option Z :=
  match ops with
  | [] => Some n
  | o :: ops' =>
      match step E w o with
      | None => None
      | Some (v, es, w') => tally E w' ops'
          (if restarts w (o, v, es) then 0
           else if is_data_uplink (o, v, es) then (if ses_dr (ses w') =? ses_dr (ses w) then n + 1 else 0)
           else n)
      end
  end.
Lemma tally_counted E ops : forall tr w n k, counted E tr w n -> forallb op_wfb ops = true -> tally E w ops n = Some k ->
  exists tr' w', run E w ops = Some (tr', w') /\ counted E (tr ++ tr') w' k.
Proof.
  induction ops as [|o ops IH]; intros tr w n k Hc Hw Ht; cbn [tally run forallb] in *.
  - injection Ht as <-. exists [], w. rewrite app_nil_r. auto.
  - apply andb_prop in Hw. destruct Hw as (W1 & W2). apply op_wfb_ok in W1.
    destruct (step E w o) as [[[v es] w1]|] eqn:Hs; [|discriminate].
    pose proof (counted_S E tr w n o v es w1 Hc W1 Hs) as K. destruct (IH _ _ _ _ K W2 Ht) as (tr' & w' & R & C). rewrite R.
    exists ((o, v, es) :: tr'), w'. split; [reflexivity|]. rewrite <- app_assoc in C. exact C.
Qed.
(** [adr_case_of E ops n ops' P]: after [ops] the count is [n], then [ops'] run and [P] holds *)
Definition adr_run (E : env) (ops : list op) (n : Z) (ops' : list op) (P : world -> list entry -> world -> bool) : Prop :=
  exists tr0 w tr w', env_ok E /\ counted E tr0 w n /\ Forall op_wf ops' /\ exec E w ops' tr w' /\ P w tr w' = true.
Lemma adr_intro E ops n ops' P : env_ok E ->
  forallb op_wfb ops && (match tally E world0 ops 0 with Some k => k =? n | None => false end) && runb E ops ops' P = true ->
  adr_run E ops n ops' P.
Proof.
  intros HE H. apply andb_prop in H. destruct H as (H & H3). apply andb_prop in H. destruct H as (H1 & H2).
  destruct (tally E world0 ops 0) as [k|] eqn:Ht; [|discriminate]. apply Z.eqb_eq in H2. subst k.
  destruct (tally_counted E ops [] world0 0 n (counted_0 E) H1 Ht) as (tr0 & w & Hr & Hc).
  destruct (run_intro E ops ops' P HE H3) as (tr & w' & A & B & C & D & F).
  assert (Q : after E ops = w) by (unfold after; rewrite Hr; reflexivity). rewrite Q in *.
  exists tr0, w, tr, w'. auto.
Qed.
Ltac show_adr := apply adr_intro; [apply demo_ok|vm_compute; reflexivity].

(** an unanswered uplink *)
Definition alone : list op := [OSend 1 [7] false; OIrq 4; OTimer TIMER_RX1; OIrq 1; OTimer TIMER_RX2; OIrq 1].
Definition times (n : nat) (l : list op) : list op := concat (repeat l n).
(** limit 1, delay 1: 7 uplinks from DR5 lower it twice *)
Example C37_backoff_case : adr_run (demo [] []) (abp 0 7 ++ [OSetDr 5; OAdrSetup 1 1; OAdrEnable true]) 0 (times 7 alone)
  (fun w tr w' => forallb (fun t => negb (adr_entry t)) tr && (number (data_frames tr) =? 7) && (ses_dr (ses w) =? 5) &&
    (adr_limit w + adr_delay w + 1 =? 3) && (ses_dr (ses w') =? 3)).
Proof. show_adr. Qed.
(** the floor *)
Example C37_floor_case : adr_run (demo [] []) (abp 0 7 ++ [OSetDr 1; OAdrSetup 0 0; OAdrEnable true]) 0 (times 5 alone)
  (fun w tr w' => forallb (fun t => negb (adr_entry t)) tr && (number (data_frames tr) =? 5) && (ses_dr (ses w) =? 1) && (ses_dr (ses w') =? 0)).
Proof. show_adr. Qed.
(** a delivered downlink restarts the count *)
Example C37_restart_case : adr_run (demo [] [(dl 8 false 0 [] (Some (5, [1; 2])), 9)]) (abp 0 7 ++ [OSetDr 5; OAdrSetup 1 1; OAdrEnable true] ++ times 1 alone ++ after_uplink) 2 [OIrq 2]
  (fun w tr w' => negb (joining w) && forallb (fun t => handed_ok (snd t)) tr && (ack_cnt (s_adr (w_st w)) =? 2) && (ack_cnt (s_adr (w_st w')) =? 0)).
Proof. show_adr. Qed.
(** ADRACKReq at the limit, not before *)
Example C38_due_case : adr_run (demo [] []) (abp 0 7 ++ [OSetDr 5; OAdrSetup 2 1; OAdrEnable true] ++ times 2 alone) 2 [OSend 1 [7] false]
  (fun w tr w' => forallb (fun f => fr_adr f && fr_adr_req f) (data_frames tr) && (number (data_frames tr) =? 1) && (adr_limit w =? 2)).
Proof. show_adr. Qed.
Example C38_early_case : adr_run (demo [] []) (abp 0 7 ++ [OSetDr 5; OAdrSetup 2 1; OAdrEnable true] ++ times 1 alone) 1 [OSend 1 [7] false]
  (fun w tr w' => forallb (fun f => fr_adr f && negb (fr_adr_req f)) (data_frames tr) && (number (data_frames tr) =? 1) && (adr_limit w =? 2)).
Proof. show_adr. Qed.
Example C38_off_case : adr_run (demo [] []) (abp 0 7 ++ [OSetDr 5; OAdrSetup 0 9] ++ times 3 alone) 3 [OSend 1 [7] false]
  (fun w tr w' => forallb (fun f => negb (fr_adr f) && negb (fr_adr_req f)) (data_frames tr) && (number (data_frames tr) =? 1)).
Proof. show_adr. Qed.

(** C58 is false: the back-off also runs with ADR disabled. 97 uplinks at DR5 with ADR
    disabled, then ADR is enabled: the device uses DR4. *)
Theorem C58_refuted : exists E w ops tr w', env_ok E /\ reachable E w /\ Forall op_wf ops /\ exec E w ops tr w' /\
  adr_on w = false /\ up_dr w = 5 /\ ses_dr (ses w) = 5 /\ Forall (fun t => handed_ok (snd t) = false) tr /\ up_dr w' = 4 /\
  exists ops1, ops = ops1 ++ [OAdrEnable true] /\ ~ In (OAdrEnable true) ops1 /\ Forall (fun o => forall d, o <> OSetDr d) ops.
Proof.
  destruct (run_intro (demo [] []) (abp 0 7 ++ [OSetDr 5]) (times 97 alone ++ [OAdrEnable true])
    (fun w tr w' => negb (adr_on w) && (up_dr w =? 5) && (ses_dr (ses w) =? 5) && forallb (fun t => negb (handed_ok (snd t))) tr && (up_dr w' =? 4)))
    as (tr & w' & A & B & C & D & F); [apply demo_ok|vm_compute; reflexivity|].
  eexists _, _, _, tr, w'. split; [exact A|]. split; [exact B|]. split; [exact C|]. split; [exact D|].
  repeat (apply andb_prop in F; destruct F as (F & ?)).
  split; [apply negb_true_iff; exact F|]. split; [apply Z.eqb_eq; assumption|]. split; [apply Z.eqb_eq; assumption|].
  split. { apply Forall_forall. intros t Ht. rewrite forallb_forall in H0. apply H0 in Ht. apply negb_true_iff. exact Ht. }
  split; [apply Z.eqb_eq; assumption|]. exists (times 97 alone). split; [reflexivity|]. split.
  - intro Q. unfold times in Q. apply in_concat in Q. destruct Q as (l & Q1 & Q2). apply repeat_spec in Q1. subst l.
    repeat destruct Q2 as [Q2|Q2]; try discriminate Q2. destruct Q2.
  - apply Forall_forall. intros o Ho d ->. apply in_app_or in Ho. destruct Ho as [Q|[Q|[]]]; [|discriminate Q].
    unfold times in Q. apply in_concat in Q. destruct Q as (l & Q1 & Q2). apply repeat_spec in Q1. subst l.
    repeat destruct Q2 as [Q2|Q2]; try discriminate Q2. destruct Q2.
Qed.
Print Assumptions C58_refuted.
(** while ADR stays disabled, uplinks do not change the data rate in use *)
Theorem C58_partial : forall E w o v es w',
  env_ok E -> reachable E w -> op_wf o -> step E w o = Some (v, es, w') -> is_data_uplink (o, v, es) = true ->
  adr_on w = false -> up_dr w' = up_dr w /\ adr_on w' = false.
Proof.
  intros E w o v es w' HE Hr Hw Hs Hf Ha. pose proof (reach_Inv E w HE Hr) as HI.
  destruct (step_tx E w o v es w' HE HI Hw Hs) as [p d c h1 s1 S|A B C D F G|A B].
  - destruct S as [_ _ _ (cc & ->) _ _ _ _ Hst _ _ _ _]. unfold up_dr, adr_on, stk, ses in *. rewrite Hst.
    change (s_adr (send_state _ _)) with (r_uplink_adr (w_st w)). cbn [r_uplink_adr adr_is_enabled set_ack_cnt].
    change (s_stk (on_cs _ _)) with (s_stk (w_st w)). unfold r_uplink_adr. cbn [adr_is_enabled set_ack_cnt]. rewrite Ha. split; reflexivity.
  - subst o. discriminate Hf.
  - unfold is_data_uplink, data_frames in Hf. cbn [flat_map fst snd] in Hf. rewrite A in Hf. destruct o; discriminate Hf.
Qed.
Print Assumptions C58_partial.
Example C58_partial_case : case_of (demo [] []) (abp 0 7 ++ [OSetDr 5; OAdrSetup 0 0]) (OSend 1 [7] false)
  (fun w v es w' => is_data_uplink (OSend 1 [7] false, v, es) && negb (adr_on w) && (up_dr w' =? 5) && (ses_dr (ses w') =? 4)).
Proof. show_case. Qed.

(** C59 is false: neither uwan_set_session nor a join restarts the count. *)
Definition asks_early (tr : list entry) : bool :=
  match data_frames tr with [f] => fr_adr_req f | _ => false end.
Theorem C59_refuted : exists E w ses_op ops tr w', env_ok E /\ reachable E w /\ Forall op_wf (ses_op :: ops) /\
  (exists a u d n p, ses_op = OSetSession a u d n p) /\ exec E w (ses_op :: ops) tr w' /\ adr_limit w = 2 /\
  asks_early tr = true.
Proof.
  destruct (run_intro (demo [] []) (abp 0 7 ++ [OSetDr 5; OAdrSetup 2 9; OAdrEnable true] ++ times 2 alone) [OSetSession 77 0 0 k2 k1; OSend 1 [7] false]
    (fun w tr w' => (adr_limit w =? 2) && asks_early tr)) as (tr & w' & A & B & C & D & F); [apply demo_ok|vm_compute; reflexivity|].
  apply andb_prop in F. destruct F as (F1 & F2). apply Z.eqb_eq in F1.
  eexists _, _, _, _, tr, w'. split; [exact A|]. split; [exact B|]. split; [exact C|]. split; [eauto 10|]. auto.
Qed.
Print Assumptions C59_refuted.
Definition joined_now (tr : list entry) : bool := existsb (fun t => match callbacks (snd t) with [(ERR_NO, 1, _)] => true | _ => false end) tr.
Theorem C59_join_refuted : exists E w ops tr w', env_ok E /\ reachable E w /\ Forall op_wf ops /\
  exec E w ops tr w' /\ joined_now tr = true /\ adr_limit w = 2 /\ asks_early tr = true /\ number (data_frames tr) = 1.
Proof.
  destruct (run_intro (demo [7] [(ja_demo, 9)]) (abp 0 7 ++ [OSetOtaa eui1 eui2 k3; OSetDr 5; OAdrSetup 2 9; OAdrEnable true] ++ times 2 alone) [OJoin; OIrq 4; OIrq 2; OSend 1 [7] false]
    (fun w tr w' => joined_now tr && (adr_limit w =? 2) && asks_early tr && (number (data_frames tr) =? 1))) as (tr & w' & A & B & C & D & F); [apply demo_ok|vm_compute; reflexivity|].
  repeat (apply andb_prop in F; destruct F as (F & ?)). 
  eexists _, _, _, tr, w'. split; [exact A|]. split; [exact B|]. split; [exact C|]. split; [exact D|]. split; [exact F|]. split; [apply Z.eqb_eq; assumption|]. split; [assumption|apply Z.eqb_eq; assumption].
Qed.
Print Assumptions C59_join_refuted.
(** What holds: if ADR is enabled (again) in the new session, no uplink asks before
    `limit` uplinks were sent since. *)
Lemma counted_run E ops : env_ok E -> forall w tr w', exec E w ops tr w' -> forall tr0 n, counted E tr0 w n -> Forall op_wf ops -> exists k, counted E (tr0 ++ tr) w' k /\ k <= n + number (data_frames tr).
Proof.
  intros HE w tr w' Hx. induction Hx as [w|w o ops v es w1 tr w' Hs Hx IH]; intros tr0 n Hc Ho.
  - exists n. rewrite app_nil_r. split; [exact Hc|]. cbn. lia.
  - inversion Ho as [|x y Ho1 Ho2]; subst. pose proof (counted_S E tr0 w n o v es w1 Hc Ho1 Hs) as K. destruct (IH _ _ K Ho2) as (k & K1 & K2).
    exists k. split; [rewrite <- app_assoc in K1; exact K1|].
    assert (Q : data_frames ((o, v, es) :: tr) = data_frames [(o, v, es)] ++ data_frames tr) by (unfold data_frames; cbn [flat_map]; rewrite app_nil_r; reflexivity).
    rewrite Q. unfold number in *. rewrite app_length, Nat2Z.inj_add. destruct (counted_cnt _ _ _ _ HE Hc) as (N0 & _).
    assert (L : 0 <= Z.of_nat (length (data_frames [(o, v, es)]))) by lia. unfold is_data_uplink, entry in *. destruct (restarts w (o, v, es)); [lia|].
    destruct (data_frames [(o, v, es)]) as [|f l]; cbn [length] in *; [lia|]. destruct (ses_dr (ses w1) =? ses_dr (ses w)); lia.
Qed.
Theorem C59_partial : forall E w b ops tr w1 o v es w2 f, env_ok E -> reachable E w -> Forall op_wf ops -> exec E w (OAdrEnable b :: ops) tr w1 ->
  op_wf o -> step E w1 o = Some (v, es, w2) -> In f (data_frames [(o, v, es)]) -> number (data_frames tr) < adr_limit w1 -> fr_adr_req f = false.
Proof.
  intros E w b ops tr w1 o v es w2 f HE (ops0 & tr0 & Ho0 & Hx0) Ho Hx Hw Hs Hf HL. destruct (C37_counted E ops0 tr0 w HE Ho0 Hx0) as (n0 & K0).
  inversion Hx as [|? ? ? v1 es1 wa tra ? Hs1 Hx1]; subst. pose proof (counted_S E tr0 w n0 (OAdrEnable b) v1 es1 wa K0 I Hs1) as K1. cbn [restarts] in K1.
  destruct (counted_run E ops HE _ _ _ Hx1 _ _ K1 Ho) as (k & K & Kk). pose proof (counted_reach _ _ _ _ HE K) as Hr1. pose proof (reach_Inv E w1 HE Hr1) as HI.
  assert (L : adr_limit w1 <= 255) by (destruct (iv_adr _ HI) as [_ L D]; unfold adr_limit, is_byte in *; lia).
  assert (Q : number (data_frames tra) <= number (data_frames ((OAdrEnable b, v1, es1) :: tra))) by (unfold data_frames, number; cbn [flat_map]; rewrite app_length; lia).
  destruct (fr_adr_req f) eqn:R; [|reflexivity]. apply (C38_ack_req_partial E _ w1 k o v es w2 f HE K) in R; [lia| |exact Hw|exact Hs|exact Hf].
  change (2 ^ 32) with 4294967296. lia.
Qed.
Print Assumptions C59_partial.
(** two uplinks in the old session, a new session, ADR enabled again, one uplink: the
    next one does not ask, although the limit is 2 *)
Example C59_partial_case : run_of (demo [] []) (abp 0 7 ++ [OSetDr 5; OAdrSetup 2 9; OAdrEnable true] ++ times 2 alone ++ [OSetSession 77 0 0 k2 k1]) (OAdrEnable true :: alone ++ [OSend 1 [7] false])
  (fun w tr w' => (adr_limit w' =? 2) && (number (data_frames tr) =? 2) && forallb (fun f => fr_adr f && negb (fr_adr_req f)) (data_frames tr) && (0 <? ses_dr (ses w'))).
Proof. show_run. Qed.
