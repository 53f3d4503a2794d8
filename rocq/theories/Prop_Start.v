(** Prop_Start.v -- what a new session starts with and where join-requests are sent
    (C96, C97), and channels that outlive uwan_init (C55). *)
From Verif Require Import SpecApp LCfg LJoin2 Prop_Mac Prop_Join Prop_Down Prop_Chan Prop_Win Prop_Uplink Prop_Init Prop_App Prop_Rx2.

(** ** C96: every activation starts from the defaults *)
(** activations: uwan_set_session, and the radio event that brings an accepted join-accept *)
Definition activates (E : env) (w : world) (o : op) (es : list ev) : Prop :=
  (exists a u d n p, o = OSetSession a u d n p) \/
  (exists m view, o = OIrq m /\ receives w m /\ joining w = true /\ callbacks es = [(ERR_NO, MTYPE_JOIN_ACCEPT, view)]).
(** Afresh are the counters, the pending acknowledgement, the data rate, and, from the
    join-accept, the RX1 delay (RX1 offset and RX2 data rate: unless out of range). All
    else is as it was: power index, number of transmissions, RX2 frequency, the queued
    MAC answers and the ADR count, and the channels unless the join-accept lists some. *)
Theorem C96_activation_partial : forall E w o v es w',
  env_ok E -> reachable E w -> op_wf o -> step E w o = Some (v, es, w') -> activates E w o es ->
  is_joined (ses w') = true /\ ack_required (ses w') = false /\ ses_dr (ses w') = c_dr (config_of w) /\
  s_adr (w_st w') = s_adr (w_st w) /\ fopts w' = fopts w /\
  (exists off delay rx2dr, let c := config_of w in
     config_of w' = Mk_config (c_dr c) (c_nb0 c) (c_nb c) (c_eirp c) (c_pw0 c) (c_pw c) off delay (c_rx2f c) rx2dr /\
     ((exists a u d n p, o = OSetSession a u d n p) -> off = c_off c /\ delay = c_delay c /\ rx2dr = c_rx2dr c)) /\
  (table w' = table w \/ exists r cflist, uw_region (stk w) = Some r /\ length cflist = 16%nat /\ table w' = cflist_apply r cflist (table w)).
Proof.
  intros E w o v es w' HE Hr Hw H A. pose proof (reach_Inv E w HE Hr) as HI. destruct A as [(a & u & d & n & p & ->)|(m & view & -> & R & J & Cb)].
  - erewrite (simple_step E w (OSetSession a u d n p)) in H by (exact HI || exact Hw || reflexivity). injection H as <- <- <-.
    split; [reflexivity|]. split; [reflexivity|]. split; [reflexivity|]. split; [reflexivity|]. split; [reflexivity|]. split; [|left; reflexivity].
    exists (c_off (config_of w)), (c_delay (config_of w)), (c_rx2dr (config_of w)). cbv zeta. split; [reflexivity|auto].
  - destruct (C26_accepted_fields E w m v es w' view HE Hr Hw R J H Cb) as (_ & an & ni & addr & dl & rxd & cf & mic & _ & _ & Lc & [I1 I2 I3 I4 I5 I6 I7 I8 I9 I10 (r & I11 & I12) I13 (I14 & I15 & I16 & off & dr & del & I17)]).
    split; [exact I1|]. split; [exact I6|]. split; [exact I7|]. split; [exact I14|]. split; [unfold fopts; rewrite I15; reflexivity|]. split.
    + exists (uw_rx1_offset (stk w')), (default_rx1_delay (stk w')), (uw_rx2_dr (stk w')). cbv zeta. split; [|intros (a & u & d & n & p & Q); discriminate Q].
      unfold config_of. cbn [c_dr c_nb0 c_nb c_eirp c_pw0 c_pw c_rx2f].
      assert (P : forall f : stackst -> Z, (forall k, f (but_transient k) = f k) -> (forall x y z k, f (set_default_rx1_delay x (set_uw_rx2_dr y (set_uw_rx1_offset z k))) = f k) -> f (stk w') = f (stk w)).
      { intros f F1 F2. rewrite <- (F1 (stk w')), I17, F2. apply F1. }
      f_equal; try (apply P; reflexivity).
    + destruct cf as [|c cf]; [left; exact I12|]. right. exists r, (c :: cf). split; [exact I11|]. split; [destruct Lc as [Q|Q]; [discriminate Q|exact Q]|exact I12].
Qed.
Print Assumptions C96_activation_partial.

(** The claim, for one piece of the configuration at a time. The network server of the
    new session knows nothing of the old one. *)
Definition C96_claim (fresh : world -> Prop) : Prop :=
  forall E w o v es w', env_ok E -> reachable E w -> op_wf o -> step E w o = Some (v, es, w') -> activates E w o es -> fresh w'.
(** first a session in which the network sets data rate, power, channels, number of
    transmissions (LinkADRReq) and the second window (RXParamSetupReq); then a join *)
Definition c96_env : env := demo [] [(dl 8 false 0 [3; 50; 3; 0; 2; 5; 19; 128; 145; 132] None, 9);
  (join_accept_frame toy_cmac toy_dec k3 1193046 7 637603842 0 1 [], 9)].
Definition c96_ops : list op := otaa EU868 ++ [OSetSession 637603841 0 7 k1 k2] ++ after_uplink ++ [OIrq 2; OJoin; OIrq 4].
Definition accepts_with (stale : world -> bool) (w : world) (v : val) (es : list ev) (w' : world) : bool :=
  recvb w 2 && joining w && match callbacks es with [(ERR_NO, 1, _)] => true | _ => false end && stale w'.
Lemma C96_refute (fresh : world -> Prop) (stale : world -> bool) : caseb c96_env c96_ops (OIrq 2) (accepts_with stale) = true ->
  (forall w, fresh w -> stale w = false) -> ~ C96_claim fresh.
Proof.
  intros Cb N C. destruct (case_intro c96_env c96_ops (OIrq 2) _ (demo_ok _ _) Cb) as (v & es & w' & HE & Hr & Hw & S & B). clear Cb. unfold accepts_with in B.
  apply andb_prop in B as [B B4]. apply andb_prop in B as [B B3]. apply andb_prop in B as [B1 B2].
  assert (A : activates c96_env (after c96_env c96_ops) (OIrq 2) es).
  { right. clear S N. destruct (callbacks es) as [|[[e t] vw] [|]]; [discriminate B3| |destruct e; try discriminate B3; destruct t as [|[]|]; discriminate B3].
    exists 2, vw. split; [reflexivity|]. split; [exact (recvb_ok _ _ B1)|]. split; [exact B2|]. destruct e; try discriminate B3. destruct t as [|[q|q|]|]; try discriminate B3. reflexivity. }
  rewrite (N w' (C _ _ _ _ _ _ HE Hr Hw S A)) in B4. discriminate B4.
Qed.
(** the application's power and number of transmissions *)
Theorem C96_power_refuted : ~ C96_claim (fun w => c_pw (config_of w) = c_pw0 (config_of w)).
Proof. apply (C96_refute _ (fun w => negb (c_pw (config_of w) =? c_pw0 (config_of w)))); [vm_compute; reflexivity|]. intros w Q. rewrite Q, Z.eqb_refl. reflexivity. Qed.
Theorem C96_repetitions_refuted : ~ C96_claim (fun w => c_nb (config_of w) = c_nb0 (config_of w)).
Proof. apply (C96_refute _ (fun w => negb (c_nb (config_of w) =? c_nb0 (config_of w)))); [vm_compute; reflexivity|]. intros w Q. rewrite Q, Z.eqb_refl. reflexivity. Qed.
(** the second window of the region *)
Theorem C96_rx2_refuted : ~ C96_claim (fun w => exists r, uw_region (stk w) = Some r /\ c_rx2f (config_of w) = rx2_default r).
Proof.
  apply (C96_refute _ (fun w => match uw_region (stk w) with Some r => negb (c_rx2f (config_of w) =? rx2_default r) | None => false end)); [vm_compute; reflexivity|].
  intros w (r & -> & Q). rewrite Q, Z.eqb_refl. reflexivity.
Qed.
(** the default channels of the region are enabled *)
Theorem C96_channels_refuted : ~ C96_claim (fun w => exists r, uw_region (stk w) = Some r /\ forall i, 0 <= i < number (region_defaults r) -> chan_on w i = true).
Proof.
  apply (C96_refute _ (fun w => match uw_region (stk w) with Some EU868 => negb (chan_on w 2) | _ => false end)); [vm_compute; reflexivity|].
  intros w (r & -> & Q). destruct r; [|reflexivity]. rewrite (Q 2); [reflexivity|cbn; lia].
Qed.
(** no answers to the commands of another session *)
Theorem C96_answers_refuted : ~ C96_claim (fun w => fopts w = []).
Proof. apply (C96_refute _ (fun w => negb (is_nil (fopts w)))); [vm_compute; reflexivity|]. intros w ->. reflexivity. Qed.
Print Assumptions C96_answers_refuted.
Example C96_case : case_of c96_env c96_ops (OIrq 2) (fun w v es w' => is_joined (ses w') && (f_cnt_up (ses w') =? 0) && (c_pw (config_of w') =? 2) && (c_nb (config_of w') =? 2) &&
  (c_rx2f (config_of w') =? 868800000) && list_eqb (fopts w') [3; 7; 5; 7] && negb (chan_on w' 2) && (c_off (config_of w) =? 1) && (c_off (config_of w') =? 0)).
Proof. show_case. Qed.

(** ** C97: join-requests are sent on the default channels *)
(** calls that leave the channels beyond the [n] first alone *)
Definition keeps_channels (n : Z) (o : op) : Prop :=
  match o with OInit _ | OSetChannel _ _ => False | OEnableChannel i _ => i < n | _ => True end.
Definition only_defaults (r : region) (t : ctable) : Prop :=
  forall i, 0 <= i < 16 -> let e := nth (Z.to_nat i) t (0, false) in (snd e = true -> i < number (region_defaults r)) /\ (i < number (region_defaults r) -> fst e = nth (Z.to_nat i) (region_defaults r) 0).
Lemma keep_step r o t : length t = 16%nat -> op_wf o -> keeps_channels (number (region_defaults r)) o -> only_defaults r t -> only_defaults r (table_call o t).
Proof.
  intros L W K D. destruct o; try exact D; try contradiction. cbn [keeps_channels table_call] in *. destruct W as [W _]. unfold map_enable. destruct (16 <=? index) eqn:Q; [exact D|]. cbv zeta. destruct (_ && _); [exact D|]. cbn [snd].
  intros i Hi. cbv zeta. rewrite nth_upd by lia. destruct (Nat.eqb_spec (Z.to_nat i) (Z.to_nat index)) as [e|e]; [|exact (D i Hi)].
  assert (i = index) by lia. subst i. cbn [fst snd]. split; [intros _; exact K|]. intro Hn. apply (D index Hi). exact Hn.
Qed.
Lemma reads_app a b : reads (a ++ b) = reads a ++ reads b.
Proof. unfold reads. apply flat_map_app. Qed.
Lemma keep_run E r : env_ok E -> forall w ops tr w', reachable E w -> Forall op_wf ops -> Forall (keeps_channels (number (region_defaults r))) ops -> exec E w ops tr w' ->
  reads (all_evs tr) = [] -> only_defaults r (table w) -> only_defaults r (table w') /\ reachable E w'.
Proof.
  intros HE w ops tr w' Hr Hw Hk X. induction X as [w|w o ops v es w1 tr w2 H X IH]; intros R D; [auto|]. inversion Hw as [|? ? Ho Hw']; subst. inversion Hk as [|? ? Hk1 Hk']; subst.
  unfold all_evs in R. cbn [flat_map] in R. change (evs_of (o, v, es)) with es in R. rewrite reads_app in R. apply app_eq_nil in R as [R1 R2].
  destruct (C69_settings E w o v es w1 HE Hr Ho H R1) as [_ T]. apply IH; try assumption; [eapply step_reach; eassumption|]. rewrite T. apply keep_step; try assumption. apply table_length.
Qed.
(** Since uwan_init the application has set no channel and enabled none beyond the default
    ones, and no packet was received: the join-request goes out on a default channel. *)
Theorem C97_join_channel_partial : forall E w r v es w0 ops tr w1 es' w2,
  env_ok E -> reachable E w -> step E w (OInit r) = Some (v, es, w0) -> Forall op_wf ops -> exec E w0 ops tr w1 ->
  Forall (keeps_channels (number (region_defaults r))) ops -> reads (all_evs tr) = [] ->
  step E w1 OJoin = Some (VErr ERR_NO, es', w2) -> exists f, In f (region_defaults r) /\ freqs es' = [f].
Proof.
  intros E w r v es w0 ops tr w1 es' w2 HE Hr H0 Hw X K R H1. assert (Hr0 : reachable E w0) by (eapply step_reach; [exact Hr| |exact H0]; exact I).
  destruct (C55_partial E w r v es w0 HE Hr H0) as (_ & _ & _ & _ & _ & _ & On & Fq & _).
  assert (D : only_defaults r (table w0)).
  { intros i Hi. destruct (C08_table_entries E w0 i HE Hr0 Hi) as (_ & Q & _). cbv zeta. rewrite Q. cbn [fst snd]. rewrite (On i Hi). split; [lia|]. intro Hn. apply Fq. lia. }
  destruct (keep_run E r HE w0 ops tr w1 Hr0 Hw K X R D) as [D1 Hr1].
  assert (T : tx_frames es' <> []) by (destruct (C25_join_request E w1 es' w2 HE Hr1 H1) as (c & x & _ & _ & ->); discriminate).
  destruct (C06_enabled_legal_channel E w1 OJoin _ es' w2 HE Hr1 I H1 T) as (i & prm & power & f & Hi & Oi & _ & (pre & mid & -> & P1 & P2)).
  destruct (C08_table_entries E w1 i HE Hr1 Hi) as (_ & Q & _). destruct (D1 i Hi) as [D2 D3]. rewrite Q in D2, D3. cbn [fst snd] in D2, D3. specialize (D2 Oi). specialize (D3 D2).
  exists (chan_freq w1 i). split; [rewrite D3; apply nth_In; unfold number in D2; lia|].
  assert (Z0 : forall l, forallb off_radio l = true -> freqs l = []) by (induction l as [|e l IH]; [reflexivity|]; cbn [forallb]; intro B; apply andb_prop in B as [B1 B2]; destruct e; cbn in B1 |- *; try discriminate B1; apply IH, B2).
  rewrite !freqs_app, (Z0 pre P1), (Z0 mid P2). reflexivity.
Qed.
Print Assumptions C97_join_channel_partial.
Example C97_case : run_of (demo [1] []) (otaa RU864) [OEnableChannel 0 false; OEnableChannel 2 true; OJoin]
  (fun w tr w' => match tr with [_; (_, VErr ERR_CHANNEL, []); (_, VErr ERR_NO, es)] => list_eqb (freqs es) [869100000] | _ => false end).
Proof. show_run. Qed.
(** The claim fails for every later join: the request goes out on whichever channel of the
    last session is drawn. First join with a CFList, second join on one of its channels. *)
Theorem C97_join_channel_refuted : ~ (forall E w r v es w0 ops tr w1 es' w2,
  env_ok E -> reachable E w -> step E w (OInit r) = Some (v, es, w0) -> Forall op_wf ops -> exec E w0 ops tr w1 ->
  Forall (keeps_channels (number (region_defaults r))) ops ->
  step E w1 OJoin = Some (VErr ERR_NO, es', w2) -> exists f, In f (region_defaults r) /\ freqs es' = [f]).
Proof.
  intro C. set (E := demo [0; 0; 3] [(ja_demo, 9)]). set (ops := [OSetOtaa eui1 eui2 k3; OJoin; OIrq 4; OIrq 2]).
  assert (B : match step E world0 (OInit EU868) with Some (_, _, w0) => match run E w0 ops with Some (_, w1) => match step E w1 OJoin with
    Some (VErr ERR_NO, es', _) => negb (existsb (fun f => existsb (Z.eqb f) (freqs es')) (region_defaults EU868)) | _ => false end | None => false end | None => false end = true) by (vm_compute; reflexivity).
  destruct (step E world0 (OInit EU868)) as [[[v es] w0]|] eqn:S0; [|discriminate]. destruct (run E w0 ops) as [[tr w1]|] eqn:R; [|discriminate]. destruct (step E w1 OJoin) as [[[v' es'] w2]|] eqn:S1; [|discriminate].
  assert (v' = VErr ERR_NO) as -> by (destruct v' as [| | |[]]; try discriminate B; reflexivity).
  destruct (C E world0 EU868 v es w0 ops tr w1 es' w2 (demo_ok _ _)) as (f & F1 & F2); try assumption.
  - exists [], []. split; constructor.
  - apply Forall_forall. intros o Ho. apply op_wfb_ok. revert o Ho. apply forallb_forall. vm_compute. reflexivity.
  - apply run_exec. exact R.
  - repeat constructor.
  - rewrite F2 in B. cbn in F1. destruct F1 as [<-|[<-|[<-|[]]]]; discriminate B.
Qed.
Print Assumptions C97_join_channel_refuted.

(** ** C55: the channels of before uwan_init *)
(** uwan_init disables the channels beyond the region's default ones but does not undefine
    them: they can be enabled as if they had been set. Here channel 2 of EU868, 868.5 MHz,
    is used in RU864, which has two default channels. *)
Theorem C55_channels_refuted : ~ (forall E w r v es w0 i v' es' w1, env_ok E -> reachable E w -> step E w (OInit r) = Some (v, es, w0) ->
  number (region_defaults r) <= i < 16 -> step E w0 (OEnableChannel i true) = Some (v', es', w1) -> v' = VErr ERR_CHANNEL).
Proof.
  intro C. set (E := demo [] []).
  assert (B : match step E (after E [OInit EU868]) (OInit RU864) with Some (_, _, w0) => match step E w0 (OEnableChannel 2 true) with Some (VErr ERR_NO, _, w1) => (chan_freq w1 2 =? 868500000) && chan_on w1 2 | _ => false end | None => false end = true) by (vm_compute; reflexivity).
  destruct (step E (after E [OInit EU868]) (OInit RU864)) as [[[v es] w0]|] eqn:S0; [|discriminate]. destruct (step E w0 (OEnableChannel 2 true)) as [[[v' es'] w1]|] eqn:S1; [|discriminate].
  assert (Hr : reachable E (after E [OInit EU868])) by (destruct (case_intro E [OInit EU868] OIsJoined (fun _ _ _ _ => true)) as (a & b & c & _ & Hr & _); [apply demo_ok|vm_compute; reflexivity|exact Hr]).
  rewrite (C E _ RU864 v es w0 2 v' es' w1 (demo_ok _ _) Hr S0 ltac:(cbn; lia) S1) in B. discriminate B.
Qed.
Print Assumptions C55_channels_refuted.
