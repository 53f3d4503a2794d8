(** Prop_Win.v -- transactions and receive windows: C30 - C32. *)
From Verif Require Import LWin2 Prop_Join Prop_Down.

(** ** C30 One transaction at a time, exactly one completion *)
Theorem C30_transactions : forall E w r v es w0 ops tr w',
  env_ok E -> reachable E w -> step E w (OInit r) = Some (v, es, w0) ->
  Forall op_wf ops -> exec E w0 ops tr w' -> Forall (fun o => forall r', o <> OInit r') ops ->
  let n := number (tx_frames (all_evs tr)) - number (callbacks (all_evs tr)) in
  (n = 0 /\ idle w') \/ (n = 1 /\ busy w').
Proof.
  intros E w r v es w0 ops tr w' HE Hr H Hw Hx Hn n. pose proof (reach_Inv E w HE Hr) as HI.
  pose proof (step_Inv E w (OInit r) v es w0 HE HI I H) as HI0.
  assert (P0 : st_phase w0 = P_idle) by (rewrite (phase_follow E w (OInit r) v es w0 (step_win E w (OInit r) v es w0 HE HI I H)); reflexivity).
  pose proof (count_exec E w0 ops tr w' HE HI0 Hw Hx Hn) as C. rewrite P0 in C.
  assert (Q : st_phase w' <> P_off) by (apply (phase_init E w0 ops tr w' HE HI0 Hw Hx); rewrite P0; discriminate).
  unfold n. rewrite C. clear - Q. unfold st_phase, idle, busy, ph in *. destruct (uw_state (stk w')); cbn; auto; congruence.
Qed.
Print Assumptions C30_transactions.
(** An accepted uplink or join transmits exactly once, a refused one and every
    other call not at all. *)
Theorem C30_accepted : forall E w o v es w',
  env_ok E -> reachable E w -> op_wf o -> step E w o = Some (v, es, w') ->
  number (tx_frames es) = (if is_uplink_call o || (match o with OJoin => true | _ => false end)
                           then match v with VErr ERR_NO => 1 | _ => 0 end else 0).
Proof.
  intros E w o v es w' HE Hr Hw H. pose proof (reach_Inv E w HE Hr) as HI. rewrite <- tx_of_link.
  destruct (step_win E w o v es w' HE HI Hw H) as [r A B C|fr pw f A B C D F G _ _ _|m ts A B C D F G K _|m A B C D F G K _|m pre rd e t vw A B C D N1 N2 F G J _|t A B C D F|A B N1 N2 N3 N4].
  - rewrite B. subst o. reflexivity.
  - rewrite F, B. destruct A as [-> |A]; [reflexivity|]. rewrite A. reflexivity.
  - rewrite G, tx_frames_app, map_time_tx. subst o. reflexivity.
  - rewrite G. subst o. reflexivity.
  - rewrite F, link_app, tx_frames_app, G. destruct (rd_none E w m rd e J) as (Q1 & _). rewrite Q1. subst o. reflexivity.
  - rewrite F. subst o. reflexivity.
  - rewrite A. destruct (is_uplink_call o) eqn:U.
    + specialize (N4 (or_intror eq_refl)). cbn [orb]. destruct v as [| | |[]]; try reflexivity. congruence.
    + cbn [orb]. destruct o; try reflexivity. specialize (N4 (or_introl eq_refl)). destruct v as [| | |[]]; try reflexivity. congruence.
Qed.
Print Assumptions C30_accepted.
(** A callback ends a call, is the only one in it, ends the transaction, and the
    radio has just been put to sleep. *)
Theorem C30_callback : forall E w o v es w',
  env_ok E -> reachable E w -> op_wf o -> step E w o = Some (v, es, w') -> callbacks es <> [] ->
  exists pre e t vw rest, es = pre ++ [CbDown e t vw] /\ callbacks pre = [] /\ tx_frames pre = [] /\ link pre = rest ++ [RSleep] /\
    busy w /\ idle w' /\ exists m, o = OIrq m.
Proof.
  intros E w o v es w' HE Hr Hw H Hc. pose proof (reach_Inv E w HE Hr) as HI. rewrite <- callbacks_link in Hc.
  destruct (step_win E w o v es w' HE HI Hw H) as [r A B C|fr pw f A B C D F G _ _ _|m ts A B C D F G K _|m A B C D F G K _|m pre rd e t vw A B C D N1 N2 F G J _|t A B C D F|A B N1 N2 N3 N4].
  - rewrite B in Hc. cbn in Hc. congruence.
  - rewrite F in Hc. cbn in Hc. congruence.
  - rewrite G, callbacks_app, map_time_cb in Hc. cbn in Hc. congruence.
  - rewrite G in Hc. cbn in Hc. congruence.
  - destruct (rd_none E w m rd e J) as (Q1 & Q2 & _). rewrite <- G in Q1, Q2. rewrite tx_of_link in Q1. rewrite callbacks_link in Q2.
    exists pre, e, t, vw, (rx_pre w ++ rd). rewrite <- app_assoc. repeat (split; [assumption|]).
    split; [|split; [|eauto]].
    + unfold st_phase, ph, busy in *. destruct (uw_state (stk w)); intuition congruence.
    + unfold st_phase, ph, idle in *. destruct (uw_state (stk w')); congruence.
  - rewrite F in Hc. cbn in Hc. congruence.
  - rewrite A in Hc. cbn in Hc. congruence.
Qed.
Print Assumptions C30_callback.
(** two transactions with spurious interrupts and timers, the second still open *)
Example C30_case : run_of (demo [] [(dl 8 false 0 [6] None, 9)]) (abp 0 7)
  [OIrq 2; OSend 1 [7] false; OIrq 3; OTimer TIMER_RX1; OIrq 4; OSend 1 [9] false; OTimer TIMER_RX1; OIrq 2; OIrq 2; OSend 1 [8] false; OIrq 4]
  (fun w tr w' => (number (tx_frames (all_evs tr)) =? 2) && (number (callbacks (all_evs tr)) =? 1)).
Proof. show_run. Qed.
Example C30_init_case : case_of (demo [] []) (abp 0 7 ++ after_uplink) (OInit RU864)
  (fun w v es w' => match uw_state (stk w) with RX1 => true | _ => false end && is_nil (callbacks es)).
Proof. show_case. Qed.

(** ** C31 Receive windows: timers and radio settings *)
(** An uplink [f] sent in [w]; nothing sent and no uwan_init until its end in [w2]. *)
Record C31_setting (E : env) (w : world) (o : op) (v : val) (es : list ev) (w1 : world) (f : list Z) (ops : list op) (tr : list entry)
    (w2 : world) (m : Z) (v' : val) (es' : list ev) (w3 : world) : Prop := Mk_C31 {
  s31_env : env_ok E;
  s31_reach : reachable E w;
  s31_wf : op_wf o;
  s31_up : step E w o = Some (v, es, w1);
  s31_frame : tx_frames es = [f];
  s31_wfs : Forall op_wf ops;
  s31_run : exec E w1 ops tr w2;
  s31_none : tx_frames (all_evs tr) = [];
  s31_noinit : Forall (fun o => forall r, o <> OInit r) ops;
  s31_tx : uw_state (stk w2) = TX;
  s31_wfm : op_wf (OIrq m);
  s31_end : Z.testbit m 2 = true;
  s31_done : step E w2 (OIrq m) = Some (v', es', w3)
}.
Lemma C31_facts E w o v es w1 f ops tr w2 m v' es' w3 : C31_setting E w o v es w1 f ops tr w2 m v' es' w3 ->
  Inv (w_st w2) /\
  (o = OJoin \/ is_uplink_call o = true) /\
  (exists freq power, link es = [RSetFreq freq; RSetup (lora (tx_dr_of o w) false); RSetPower power; RTx f]) /\
  link (all_evs tr) = [] /\ pkt_params (stk w2) = lora (tx_dr_of o w) false /\
  exists ts, link es' = [TStart TIMER_RX1 (up_delay o w); TStart TIMER_RX2 (up_delay o w + 1000); RSetup (rx1_params (w_st w2))] ++ map MGetTime ts.
Proof.
  intros [HE Hr Hw H Hf Hws Hx Hn Hni Htx Hwm Hm H']. pose proof (reach_Inv E w HE Hr) as HI.
  destruct (tx_step E w o v es w1 f HE HI Hw H Hf) as (O & fr & pw & L & P & Pp & D1 & D2).
  pose proof (step_Inv E w o v es w1 HE HI Hw H) as HI1. pose proof (exec_Inv E w1 _ _ _ HE HI1 Hws Hx) as HI2.
  assert (P2 : st_phase w2 = P_tx) by (unfold st_phase, ph; rewrite Htx; reflexivity).
  destruct (tx_wait E w1 ops tr w2 HE HI1 Hws Hx Hn Hni P2) as (_ & [K1 K2 K3 K4]).
  destruct (txdone_step E w2 m v' es' w3 HE HI2 Hwm H' P2 Hm) as (ts & T).
  split; [exact HI2|]. split; [exact O|]. split; [eauto|]. split; [exact K4|]. split; [congruence|]. exists ts. rewrite T. congruence.
Qed.
(** The timers run for d and d + 1 s, where d is 5 s for a join-request and the
    RX1 delay configured when the uplink was accepted otherwise; RX1 is prepared
    on the uplink frequency (the radio is not retuned), with inverted IQ. *)
Theorem C31_timers : forall E w o v es w1 f ops tr w2 m v' es' w3,
  C31_setting E w o v es w1 f ops tr w2 m v' es' w3 ->
  let d := match o with OJoin => 5000 | _ => default_rx1_delay (stk w) end in
  timers (es ++ all_evs tr ++ es') = [(TIMER_RX1, d); (TIMER_RX2, d + 1000)] /\
  (exists freq, freqs es = [freq] /\ freqs (all_evs tr ++ es') = []) /\
  setups es = [lora (match o with OJoin => default_dr (stk w) | _ => up_dr w end) false] /\ setups (all_evs tr) = [] /\
  exists dr, 0 <= dr < 6 /\ setups es' = [lora dr true].
Proof.
  intros E w o v es w1 f ops tr w2 m v' es' w3 S d. destruct (C31_facts _ _ _ _ _ _ _ _ _ _ _ _ _ _ S) as (HI & O & (fr & pw & L) & L1 & Pp & ts & L2).
  assert (T : forall (l : list Z), timers (map MGetTime l) = [] /\ freqs (map MGetTime l) = [] /\ setups (map MGetTime l) = []).
  { intro l. induction l as [|x l (I1 & I2 & I3)]; repeat split; assumption. }
  destruct (T ts) as (T1 & T2 & T3).
  split; [|split; [|split; [|split]]].
  - rewrite <- timers_link, !link_app, L, L1, L2. cbn -[up_delay]. unfold timers in T1 at 1. unfold timers. rewrite T1. reflexivity.
  - exists fr. rewrite <- (freqs_link es), <- (freqs_link (_ ++ _)), link_app, L, L1, L2. cbn. split; [reflexivity|exact T2].
  - rewrite <- setups_link, L. reflexivity.
  - rewrite <- setups_link, L1. reflexivity.
  - rewrite <- setups_link, L2. cbn [setups app]. rewrite T3.
    pose proof (rx1_params_ok (w_st w2) HI (s31_tx _ _ _ _ _ _ _ _ _ _ _ _ _ _ S)) as (A1 & A2 & A3 & A4 & A5 & A6 & A7).
    exists (6 - p_sf (rx1_params (w_st w2))). split; [lia|]. f_equal. clear - A1 A2 A3 A4 A5 A6 A7.
    destruct (rx1_params (w_st w2)) as [a b c d0 e g i]. cbn [p_sf p_bw p_cr p_preamble_len p_crc_on p_inverted_iq p_implicit_header] in *.
    subst b c d0 e g i. unfold lora, dr_sf. f_equal. lia.
Qed.
Print Assumptions C31_timers.

(** The receiver is started by the timer of the open window and by nothing else;
    it then listens with inverted IQ, in RX1 on the frequency of the last uplink. *)
Theorem C31_receiver : forall E ops tr w o v es w',
  env_ok E -> Forall op_wf ops -> exec E world0 ops tr w -> op_wf o -> step E w o = Some (v, es, w') ->
  (starts_rx es = true <-> (phase_of tr = P_rx1 /\ o = OTimer TIMER_RX1) \/ (phase_of tr = P_rx2 /\ o = OTimer TIMER_RX2)) /\
  (starts_rx es = true ->
     es = [RRx 255 8 0] /\ p_inverted_iq (t_par (radio (w_hist w))) = true /\
     (phase_of tr = P_rx1 -> t_freq (radio (w_hist w)) = t_up_freq (radio (w_hist w)))).
Proof.
  intros E ops tr w o v es w' HE Ho Hx Hw H. pose proof (exec_Inv E world0 _ _ _ HE power_on_Inv Ho Hx) as HI.
  rewrite <- (phase_sound E ops tr w HE Ho Hx). pose proof (exec_tuned E ops tr w HE Ho Hx) as T. rewrite <- starts_link.
  assert (M : forall ts, starts_rx (map MGetTime ts) = false) by (induction ts; auto).
  assert (S : forall a b, starts_rx (a ++ b) = starts_rx a || starts_rx b) by (intros; apply existsb_app).
  destruct (step_win E w o v es w' HE HI Hw H) as [r A B C|fr pw f A B C D F G _ _ _|m ts A B C D F G K _|m A B C D F G K _|m pre rd e t vw A B C D N1 N2 F G J _|t A B C D F|A B N1 N2 N3 N4].
  - rewrite B. split; [|discriminate]. subst o. split; [discriminate|intros [(_ & Q)|(_ & Q)]; discriminate Q].
  - rewrite F. split; [|discriminate]. split; [discriminate|]. intros [(_ & ->)|(_ & ->)]; destruct A as [A|A]; discriminate A.
  - rewrite G, S, M. split; [|discriminate]. subst o. split; [discriminate|intros [(_ & Q)|(_ & Q)]; discriminate Q].
  - rewrite G. split; [|discriminate]. subst o. split; [discriminate|intros [(_ & Q)|(_ & Q)]; discriminate Q].
  - rewrite F, link_app, S, G. destruct (rd_none E w m rd e J) as (_ & _ & _ & _ & _ & Q1). rewrite Q1. split; [|discriminate].
    subst o. split; [discriminate|intros [(_ & Q)|(_ & Q)]; discriminate Q].
  - rewrite F. split.
    + split; [|reflexivity]. intros _. subst o. destruct D as [(D & ->)|(D & ->)]; auto.
    + intros _. split; [exact eq_refl|]. unfold tuned in T. cbv zeta in T. destruct D as [(D & _)|(D & _)]; rewrite D in *.
      * destruct T as (T1 & T2 & T3). auto.
      * destruct T as (T1 & T2). split; [exact T2|discriminate].
  - rewrite A. split; [|discriminate]. split; [discriminate|]. intros [(Q & ->)|(Q & ->)]; exfalso; destruct (N3 _ eq_refl) as (_ & N); apply N; auto.
Qed.
Print Assumptions C31_receiver.

(** When RX1 times out RX2 is prepared on the configured frequency and data rate,
    and the radio is not retuned until the transaction is over. *)
Theorem C31_rx2 : forall E ops0 tr0 w m v es w1 ops tr w2,
  env_ok E -> Forall op_wf ops0 -> exec E world0 ops0 tr0 w -> phase_of tr0 = P_rx1 -> Z.testbit m 0 = true -> op_wf (OIrq m) ->
  step E w (OIrq m) = Some (v, es, w1) ->
  es = [RSetFreq (uw_rx2_frequency (stk w)); RSetup (lora (uw_rx2_dr (stk w)) true)] /\
  (Forall op_wf ops -> exec E w1 ops tr w2 -> Forall (fun o => forall r, o <> OInit r) ops -> callbacks (all_evs tr) = [] ->
   phase_of (tr0 ++ [(OIrq m, v, es)] ++ tr) = P_rx2 /\ freqs (all_evs tr) = [] /\ setups (all_evs tr) = []).
Proof.
  intros E ops0 tr0 w m v es w1 ops tr w2 HE Ho Hx Hp Hm Hw H. pose proof (exec_Inv E world0 _ _ _ HE power_on_Inv Ho Hx) as HI.
  pose proof (phase_sound E ops0 tr0 w HE Ho Hx) as Ps. rewrite Hp in Ps.
  assert (L : es = [RSetFreq (uw_rx2_frequency (stk w)); RSetup (lora (uw_rx2_dr (stk w)) true)] /\ st_phase w1 = P_rx2).
  { destruct (step_win E w _ v es w1 HE HI Hw H) as [r A B C|fr pw f0 [A|A] B C D F G _ _ _|m0 ts A B C D F G K _|m0 A B C D F G K _|m0 pre rd e t vw A B [C|C] D N1 N2 F G J _|t A B C D F|A B N1 N2 N3 N4]; try congruence; try discriminate A.
    - auto.
    - destruct (N1 Ps). congruence.
    - destruct (N2 m eq_refl) as (_ & [Q|[Q|[(Q & _)|(_ & Q & _)]]]); congruence. }
  destruct L as (L1 & L2). split; [exact L1|]. intros Hws Hxs Hni Hcb.
  pose proof (step_Inv E w _ v es w1 HE HI Hw H) as HI1.
  assert (G : st_phase w2 = P_rx2 /\ freqs (all_evs tr) = [] /\ setups (all_evs tr) = []).
  { clear - HE HI1 L2 Hws Hxs Hni Hcb. induction Hxs as [w|w o ops v es w1 tr w2 H Hx IH]; [auto|].
    inversion Hws as [|? ? W1 W2]; subst. inversion Hni as [|? ? M1 M2]; subst.
    unfold all_evs in Hcb. cbn [flat_map] in Hcb. change (evs_of (o, v, es)) with es in Hcb. rewrite callbacks_app in Hcb. apply app_eq_nil in Hcb. destruct Hcb as (C1 & C2).
    assert (K : st_phase w1 = P_rx2 /\ freqs es = [] /\ setups es = []).
    { destruct (step_win E w o v es w1 HE HI1 W1 H) as [r A B C|fr pw f A B C D F G _ _ _|m ts A B C D F G K _|m A B C D F G K _|m pre rd e t vw A B C D N1 N2 F G J _|t A B C D F|A B N1 N2 N3 N4]; try congruence.
      - exfalso. rewrite F, callbacks_app in C1. apply app_eq_nil in C1. destruct C1 as (_ & C1). discriminate C1.
      - rewrite F. assert (Q : st_phase w1 = st_phase w) by (unfold st_phase, ph, stk; rewrite C; reflexivity). rewrite Q. auto.
      - rewrite <- freqs_link, <- setups_link, A. assert (Q : st_phase w1 = st_phase w) by (unfold st_phase; rewrite (sp_state _ _ B); reflexivity). rewrite Q. auto. }
    destruct K as (K1 & K2 & K3). destruct (IH K1 W2 M2 C2 (step_Inv E w o v es w1 HE HI1 W1 H)) as (J1 & J2 & J3).
    split; [exact J1|]. unfold all_evs in *. cbn [flat_map]. change (evs_of (o, v, es)) with es. rewrite freqs_app, setups_app, K2, K3, J2, J3. split; reflexivity. }
  destruct G as (G1 & G2). split; [|exact G2]. rewrite <- G1, (phase_exec E w1 ops tr w2 HE HI1 Hws Hxs), L2.
  assert (Q : phase_of (tr0 ++ [(OIrq m, v, es)] ++ tr) = fold_left phase_step tr (phase_step (phase_of tr0) (OIrq m, v, es)))
    by (unfold phase_of; rewrite !fold_left_app; reflexivity).
  rewrite Q, Hp. cbv beta iota zeta delta [phase_step]. fold phase_step. rewrite Hm. reflexivity.
Qed.
Print Assumptions C31_rx2.
(** a reception in RX1 stops the RX2 timer before anything else *)
Theorem C31_rx1_done : forall E ops tr w m v es w',
  env_ok E -> Forall op_wf ops -> exec E world0 ops tr w -> op_wf (OIrq m) -> step E w (OIrq m) = Some (v, es, w') ->
  phase_of tr = P_rx1 -> Z.testbit m 0 = false -> Z.testbit m 1 = true ->
  (exists rest, link es = TStop TIMER_RX2 :: rest) /\ number (callbacks es) = 1.
Proof.
  intros E ops tr w m v es w' HE Ho Hx Hw H Hp M0 M1. pose proof (exec_Inv E world0 _ _ _ HE power_on_Inv Ho Hx) as HI.
  rewrite <- (phase_sound E ops tr w HE Ho Hx) in Hp.
  destruct (step_win E w _ v es w' HE HI Hw H) as [r A B C|fr pw f0 [A|A] B C D F G _ _ _|m0 ts A B C D F G K _|m0 A B C D F G K _|m0 pre rd e t vw A B C D N1 N2 F G J _|t A B C D F|A B N1 N2 N3 N4]; try congruence; try discriminate A.
  - rewrite <- callbacks_link, F, link_app, callbacks_app, G. destruct (rd_none E w m0 rd e J) as (_ & Q2 & _). rewrite Q2. split; [|reflexivity].
    assert (Q : rx_pre w = [TStop TIMER_RX2]) by (unfold rx_pre; unfold st_phase, ph in Hp; destruct (uw_state (stk w)); congruence). rewrite Q. eexists. reflexivity.
  - destruct (N2 m eq_refl) as (_ & [Q|[Q|[(Q & _)|(_ & Q & Q2)]]]); congruence.
Qed.
Print Assumptions C31_rx1_done.

(** finding settings by running *)
Definition plain31 (o : op) : bool := match o with OInit _ => false | _ => true end.
Definition c31b (E : env) (pre : list op) (o : op) (ops : list op) (m : Z)
    (P : world -> list ev -> world -> list ev -> bool) : bool :=
  forallb op_wfb pre && runs E pre && op_wfb o && forallb op_wfb ops && op_wfb (OIrq m) && forallb plain31 ops && Z.testbit m 2 &&
  match step E (after E pre) o with
  | Some (v, es, w1) =>
      match tx_frames es, run E w1 ops with
      | [f], Some (tr, w2) =>
          is_nil (tx_frames (all_evs tr)) && match uw_state (stk w2) with TX => true | _ => false end &&
          match step E w2 (OIrq m) with Some (v', es', w3) => P (after E pre) es w2 es' | None => false end
      | _, _ => false
      end
  | None => false
  end.
Lemma c31_intro E pre o ops m P : env_ok E -> c31b E pre o ops m P = true ->
  exists w v es w1 f tr w2 v' es' w3, C31_setting E w o v es w1 f ops tr w2 m v' es' w3 /\ P w es w2 es' = true.
Proof.
  intros HE H. unfold c31b in H. apply andb_prop in H. destruct H as [H H1]. apply andb_prop in H. destruct H as [H Hm].
  apply andb_prop in H. destruct H as [H Hpl]. apply andb_prop in H. destruct H as [H Hwm]. apply andb_prop in H. destruct H as [H Hws].
  apply andb_prop in H. destruct H as [H Hwo].
  destruct (step E (after E pre) o) as [[[v es] w1]|] eqn:E1; [|discriminate H1].
  destruct (tx_frames es) as [|f [|? ?]] eqn:E2; try discriminate H1.
  destruct (run E w1 ops) as [[tr w2]|] eqn:E3; [|discriminate H1]. apply andb_prop in H1. destruct H1 as [N H1]. apply andb_prop in N. destruct N as [N N3].
  destruct (step E w2 (OIrq m)) as [[[v' es'] w3]|] eqn:E4; [|discriminate H1].
  exists (after E pre), v, es, w1, f, tr, w2, v', es', w3. split; [|exact H1]. constructor; try assumption.
  - apply after_reach. exact H.
  - apply op_wfb_ok. exact Hwo.
  - apply Forall_forall. intros x Hx. apply op_wfb_ok. rewrite forallb_forall in Hws. apply Hws. exact Hx.
  - apply run_exec. exact E3.
  - destruct (tx_frames (all_evs tr)); [reflexivity|discriminate N].
  - apply Forall_forall. intros x Hx. rewrite forallb_forall in Hpl. specialize (Hpl x Hx). destruct x; try discriminate Hpl; discriminate.
  - destruct (uw_state (stk w2)); congruence.
  - apply op_wfb_ok. exact Hwm.
Qed.
(** a confirmed uplink with a 7 s delay; the delay is changed while it is on air *)
Example C31_timers_case : exists E w o v es w1 f ops tr w2 m v' es' w3,
  C31_setting E w o v es w1 f ops tr w2 m v' es' w3 /\ default_rx1_delay (stk w) = 7000 /\ default_rx1_delay (stk w2) = 3000.
Proof.
  destruct (c31_intro (demo [] []) (abp 0 7 ++ [OSetRx1Delay 7]) (OSend 1 [7] true) [OSetRx1Delay 3; OIrq 3; OTimer TIMER_RX1] 4
    (fun w es w2 es' => (default_rx1_delay (stk w) =? 7000) && (default_rx1_delay (stk w2) =? 3000)))
    as (w & v & es & w1 & f & tr & w2 & v' & es' & w3 & S & F); [apply demo_ok|vm_compute; reflexivity|].
  ands F. do 13 eexists. exists w3. split; [exact S|]. split; apply Z.eqb_eq; assumption.
Qed.
(** an unanswered uplink: both receive windows are opened *)
Example C31_receiver_case : run_of (demo [] []) [] (abp 0 7 ++ [OSend 1 [7] true; OIrq 4; OTimer TIMER_RX1; OIrq 1; OTimer TIMER_RX2])
  (fun w tr w' => match phase_of tr with P_rx2 => true | _ => false end &&
     match link (all_evs (skipn (length (abp 0 7) + 2) tr)) with
     | [RRx _ _ _; RSetFreq f; RSetup p; RRx _ _ _] => (f =? 868100000) && (p_sf p =? 6) && p_inverted_iq p
     | _ => false
     end).
Proof. show_run. Qed.

(** ** C32 RX1 data rate *)
(** the data rate of the uplink lowered by the offset in force at its end *)
Definition C32_claim (o : op) (w w2 : world) (es' : list ev) : Prop :=
  setups es' = [lora (Z.max 0 ((match o with OJoin => default_dr (stk w) | _ => up_dr w end) - uw_rx1_offset (stk w2))) true].

(** It holds when no offset is configured, and when the data rate for the next
    uplink is still that of this one. *)
Theorem C32_partial : forall E w o v es w1 f ops tr w2 m v' es' w3,
  C31_setting E w o v es w1 f ops tr w2 m v' es' w3 ->
  uw_rx1_offset (stk w2) = 0 \/ up_dr w2 = (match o with OJoin => default_dr (stk w) | _ => up_dr w end) ->
  C32_claim o w w2 es'.
Proof.
  intros E w o v es w1 f ops tr w2 m v' es' w3 S Hor. destruct (C31_facts _ _ _ _ _ _ _ _ _ _ _ _ _ _ S) as (HI & O & (fr & pw & L) & L1 & Pp & ts & L2).
  assert (T3 : setups (map MGetTime ts) = []) by (clear; induction ts; auto).
  unfold C32_claim. rewrite <- setups_link, L2. cbn [setups app]. rewrite T3. f_equal. unfold rx1_params. fold (stk w2). rewrite Pp.
  assert (R : 0 <= tx_dr_of o w < 6).
  { pose proof (reach_Inv E w (s31_env _ _ _ _ _ _ _ _ _ _ _ _ _ _ S) (s31_reach _ _ _ _ _ _ _ _ _ _ _ _ _ _ S)) as HI0.
    pose proof (cur_dr_range (w_st w) HI0). pose proof (tk_ddr _ (iv_stk _ HI0)). unfold tx_dr_of. destruct o; assumption. }
  change (match o with OJoin => default_dr (stk w) | _ => up_dr w end) with (tx_dr_of o w) in *.
  destruct (Z.eqb_spec (uw_rx1_offset (stk w2)) 0) as [Ez|Ez].
  - rewrite Ez, Z.sub_0_r, Z.max_r by lia. reflexivity.
  - destruct Hor as [Hor|Hor]; [contradiction|]. unfold rx1_dr. change (cur_dr (w_st w2)) with (up_dr w2). rewrite Hor. reflexivity.
Qed.
Print Assumptions C32_partial.
Example C32_case : exists E w o v es w1 f ops tr w2 m v' es' w3,
  C31_setting E w o v es w1 f ops tr w2 m v' es' w3 /\ uw_rx1_offset (stk w2) = 2 /\ up_dr w2 = up_dr w /\ up_dr w = 5 /\ o = OSend 1 [7] true.
Proof.
  destruct (c31_intro (demo [] []) (abp 0 7 ++ [OSetDr 5; OSetRx1Off 2]) (OSend 1 [7] true) [] 4
    (fun w es w2 es' => (uw_rx1_offset (stk w2) =? 2) && (up_dr w2 =? up_dr w) && (up_dr w =? 5)))
    as (w & v & es & w1 & f & tr & w2 & v' & es' & w3 & S & F); [apply demo_ok|vm_compute; reflexivity|].
  ands F. do 13 eexists. exists w3. split; [exact S|]. rewrite Z.eqb_eq in *. auto.
Qed.
Definition claim32b (dr : Z) (w2 : world) (es' : list ev) : bool :=
  match setups es' with [p] => p_sf p =? 6 - Z.max 0 (dr - uw_rx1_offset (stk w2)) | _ => false end.
Lemma claim32_false o w w2 es' dr : dr = (match o with OJoin => default_dr (stk w) | _ => up_dr w end) ->
  claim32b dr w2 es' = false -> ~ C32_claim o w w2 es'.
Proof. intros -> F C. unfold C32_claim in C. unfold claim32b in F. rewrite C in F. cbn [p_sf lora] in F. unfold dr_sf in F. rewrite Z.eqb_refl in F. discriminate F. Qed.
Lemma refute32 pre o ops dr (Q : env -> world -> op -> list op -> Prop) (q : world -> bool) :
  (forall w, dr w = (match o with OJoin => default_dr (stk w) | _ => up_dr w end)) ->
  (forall w, q w = true -> Q (demo [] []) w o ops) ->
  c31b (demo [] []) pre o ops 4 (fun w es w2 es' => q w && negb (claim32b (dr w) w2 es')) = true ->
  ~ (forall E w o v es w1 f ops tr w2 m v' es' w3, C31_setting E w o v es w1 f ops tr w2 m v' es' w3 -> Q E w o ops -> C32_claim o w w2 es').
Proof.
  intros Hd Hq H C. destruct (c31_intro _ _ _ _ _ _ (demo_ok [] []) H) as (w & v & es & w1 & f & tr & w2 & v' & es' & w3 & S & F).
  apply andb_prop in F. destruct F as [F1 F2]. apply negb_true_iff in F2.
  exact (claim32_false _ _ _ _ _ (Hd w) F2 (C _ _ _ _ _ _ _ _ _ _ _ _ _ _ S (Hq w F1))).
Qed.
(** an ADR back-off made by the uplink itself also lowers its RX1 data rate *)
Theorem C32_refuted : ~ (forall E w o v es w1 f ops tr w2 m v' es' w3, C31_setting E w o v es w1 f ops tr w2 m v' es' w3 ->
  o <> OJoin /\ ops = [] -> C32_claim o w w2 es').
Proof.
  apply (refute32 (abp 0 7 ++ [OSetDr 5; OAdrEnable true; OAdrSetup 0 0; OSetRx1Off 1]) (OSend 1 [7] true) [] up_dr
    (fun _ _ o ops => o <> OJoin /\ ops = []) (fun _ => true)); [reflexivity|split; [discriminate|reflexivity]|vm_compute; reflexivity].
Qed.
Print Assumptions C32_refuted.
(** so does uwan_set_dr while the uplink is on air, without ADR *)
Theorem C32_set_dr_refuted : ~ (forall E w o v es w1 f ops tr w2 m v' es' w3, C31_setting E w o v es w1 f ops tr w2 m v' es' w3 ->
  o <> OJoin /\ adr_on w = false -> C32_claim o w w2 es').
Proof.
  apply (refute32 (abp 0 7 ++ [OSetDr 5; OSetRx1Off 1]) (OSend 1 [7] true) [OSetDr 3] up_dr
    (fun _ w o _ => o <> OJoin /\ adr_on w = false) (fun w => negb (adr_on w))); [reflexivity| |vm_compute; reflexivity].
  intros w H. apply negb_true_iff in H. split; [discriminate|exact H].
Qed.
Print Assumptions C32_set_dr_refuted.
(** and with ADR a join-request is listened for at the data rate of the old session *)
Theorem C32_join_refuted : ~ (forall E w o v es w1 f ops tr w2 m v' es' w3, C31_setting E w o v es w1 f ops tr w2 m v' es' w3 ->
  o = OJoin /\ ops = [] -> C32_claim o w w2 es').
Proof.
  apply (refute32 (abp 0 7 ++ [OSetDr 5; OAdrEnable true; OAdrSetup 0 0; OSetRx1Off 1; OSend 1 [7] true; OIrq 4; OIrq 1; OIrq 1]) OJoin [] (fun w => default_dr (stk w))
    (fun _ _ o ops => o = OJoin /\ ops = []) (fun _ => true)); [reflexivity|split; reflexivity|vm_compute; reflexivity].
Qed.
Print Assumptions C32_join_refuted.
