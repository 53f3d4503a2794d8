(** LWin.v -- the transaction automaton, the radio and the windows. *)
From Verif Require Export SpecTx LTime.

Definition st_phase (w : world) : phase :=
  match ph w with NOT_INIT => P_off | IDLE => P_idle | TX => P_tx | RX1 => P_rx1 | RX2 => P_rx2 end.

(** the three kinds of events depend on [link] only *)
Lemma tune_link es x : fold_left tune_step (link es) x = fold_left tune_step es x.
Proof. revert x. induction es as [|e es IH]; intro x; [reflexivity|]. destruct e; cbn; apply IH. Qed.
Lemma due_link es x : fold_left due_ev (link es) x = fold_left due_ev es x.
Proof. revert x. induction es as [|e es IH]; intro x; [reflexivity|]. destruct e; cbn; apply IH. Qed.
Lemma freqs_link es : freqs (link es) = freqs es.
Proof. induction es as [|e es IH]; [reflexivity|]. unfold link in *. destruct e; cbn; rewrite ?IH; reflexivity. Qed.
Lemma setups_link es : setups (link es) = setups es.
Proof. induction es as [|e es IH]; [reflexivity|]. unfold link in *. destruct e; cbn; rewrite ?IH; reflexivity. Qed.
Lemma timers_link es : timers (link es) = timers es.
Proof. induction es as [|e es IH]; [reflexivity|]. unfold link, timers in *. destruct e; cbn; rewrite ?IH; reflexivity. Qed.
Lemma starts_link es : starts_rx (link es) = starts_rx es.
Proof. induction es as [|e es IH]; [reflexivity|]. unfold link, starts_rx in *. destruct e; cbn; rewrite ?IH; reflexivity. Qed.
Lemma reads_link es : reads (link es) = reads es.
Proof. induction es as [|e es IH]; [reflexivity|]. unfold link, reads in *. destruct e; cbn; rewrite ?IH; reflexivity. Qed.

Lemma tx_done_link E h s : exists ts, link (tx_done_evs E h s) =
  [TStart TIMER_RX1 (uw_rx1_delay (s_stk s)); TStart TIMER_RX2 (uw_rx2_delay (s_stk s)); RSetup (rx1_params s)] ++ map MGetTime ts.
Proof.
  unfold tx_done_evs, tx_done_time. destruct (mac_save_dev_time _); [|exists []; reflexivity].
  destruct (mac_cbs _) as [cb|]; [|exists []; reflexivity]. destruct (has_get_device_time cb); [|exists []; reflexivity].
  eexists [_]. reflexivity.
Qed.

(** what the outside sees of one step, and how the state follows *)
Inductive win_case (E : env) (w : world) (o : op) (v : val) (es : list ev) (w' : world) : Prop :=
| WC_init r : o = OInit r -> link es = [] -> st_phase w' = P_idle -> win_case E w o v es w'
| WC_tx freq power f : o = OJoin \/ is_uplink_call o = true -> v = VErr ERR_NO -> st_phase w = P_idle -> st_phase w' = P_tx ->
    link es = [RSetFreq freq; RSetup (lora (tx_dr_of o w) false); RSetPower power; RTx f] ->
    pkt_params (stk w') = lora (tx_dr_of o w) false ->
    uw_rx1_delay (stk w') = up_delay o w -> uw_rx2_delay (stk w') = up_delay o w + 1000 ->
    joining w' = (match o with OJoin => true | _ => joining w end) -> win_case E w o v es w'
| WC_txdone m ts : o = OIrq m -> v = VUnit -> st_phase w = P_tx -> Z.testbit m 2 = true -> st_phase w' = P_rx1 ->
    link es = [TStart TIMER_RX1 (uw_rx1_delay (stk w)); TStart TIMER_RX2 (uw_rx2_delay (stk w)); RSetup (rx1_params (w_st w))] ++ map MGetTime ts ->
    pkt_params (stk w') = rx1_params (w_st w) -> joining w' = joining w -> win_case E w o v es w'
| WC_rx1to m : o = OIrq m -> v = VUnit -> st_phase w = P_rx1 -> Z.testbit m 0 = true -> st_phase w' = P_rx2 ->
    es = [RSetFreq (uw_rx2_frequency (stk w)); RSetup (lora (uw_rx2_dr (stk w)) true)] ->
    pkt_params (stk w') = lora (uw_rx2_dr (stk w)) true -> joining w' = joining w -> win_case E w o v es w'
| WC_end m pre rd e t vw : o = OIrq m -> v = VUnit -> st_phase w = P_rx1 \/ st_phase w = P_rx2 -> st_phase w' = P_idle ->
    (st_phase w = P_rx1 -> Z.testbit m 0 = false /\ Z.testbit m 1 = true) ->
    (st_phase w = P_rx2 -> Z.testbit m 0 = true \/ Z.testbit m 1 = true) ->
    es = pre ++ [CbDown e t vw] -> link pre = rx_pre w ++ rd ++ [RSleep] ->
    (rd = [RRead (received E w)] /\ receives w m \/ rd = [] /\ ~ receives w m /\ e <> ERR_NO) ->
    joining w' = false -> win_case E w o v es w'
| WC_rx t : o = OTimer t -> v = VUnit -> w_st w' = w_st w ->
    (st_phase w = P_rx1 /\ t = TIMER_RX1 \/ st_phase w = P_rx2 /\ t = TIMER_RX2) -> es = [RRx 255 8 0] -> win_case E w o v es w'
| WC_quiet : link es = [] -> same_phase w w' -> (forall r, o <> OInit r) ->
    (forall m, o = OIrq m -> es = [] /\
      (st_phase w = P_off \/ st_phase w = P_idle \/ (st_phase w = P_tx /\ Z.testbit m 2 = false) \/
       ((st_phase w = P_rx1 \/ st_phase w = P_rx2) /\ Z.testbit m 0 = false /\ Z.testbit m 1 = false))) ->
    (forall t, o = OTimer t -> es = [] /\ ~ (st_phase w = P_rx1 /\ t = TIMER_RX1 \/ st_phase w = P_rx2 /\ t = TIMER_RX2)) ->
    (o = OJoin \/ is_uplink_call o = true -> v <> VErr ERR_NO) -> win_case E w o v es w'.

Lemma same_phase_refl w w' : w_st w' = w_st w -> same_phase w w'.
Proof. intro H. constructor; unfold ph, stk; rewrite H; reflexivity. Qed.
Lemma delay_range w : Inv (w_st w) -> 1000 <= default_rx1_delay (stk w) <= 15000.
Proof. intro HI. destruct (tk_ddel _ (iv_stk _ HI)) as (d & A & B). unfold stk. lia. Qed.

Lemma step_win E w o v es w' : env_ok E -> Inv (w_st w) -> op_wf o -> step E w o = Some (v, es, w') -> win_case E w o v es w'.
Proof.
  intros HE HI Hw H. destruct (step_phase E w o v es w' HE HI Hw H) as (P & _).
  pose proof (tk_init _ (iv_stk _ HI)) as Ti. pose proof (delay_range w HI) as Dl.
  assert (Lo : ph w <> NOT_INIT -> forall sf iq, Mk_params sf 0 (p_cr (pkt_params (stk w))) (p_preamble_len (pkt_params (stk w))) (p_crc_on (pkt_params (stk w))) iq
     (p_implicit_header (pkt_params (stk w))) = Mk_params sf 0 0 8 true iq false).
  { intros N sf iq. destruct (Ti N) as (_ & _ & A1 & A2 & A3 & A4). unfold stk. rewrite A1, A2, A3, A4. reflexivity. }
  destruct P as [r A B C D|fr pw f A B C D F _ G1 G2 G3 G4 _ _|m A B C D F G K|m A B C D F G|m pre rd e t vw A B C D F G K J _ _ N1 N2|t A B C D|m A B C D F|A B N1 N2 N3 N4 _].
  - apply (WC_init _ _ _ _ _ _ r A); [subst es; reflexivity|]. unfold st_phase, ph, stk. rewrite D. reflexivity.
  - assert (L : tx_params (tx_dr_of o w) (pkt_params (stk w)) = lora (tx_dr_of o w) false) by (apply Lo; rewrite C; discriminate).
    rewrite L in *.
    apply (WC_tx _ _ _ _ _ _ fr pw f A B); [unfold st_phase; rewrite C; reflexivity|unfold st_phase; rewrite D; reflexivity|exact F|exact G3|exact G1| |exact G4].
    rewrite G2. unfold u32. rewrite Z.mod_small; [reflexivity|]. unfold up_delay. destruct o; lia.
  - destruct (tx_done_link E (w_hist w) (w_st w)) as (ts & T).
    apply (WC_txdone _ _ _ _ _ _ m ts A B); [unfold st_phase; rewrite C; reflexivity|exact D|unfold st_phase, ph, stk; rewrite K; reflexivity|rewrite G; exact T|unfold stk; rewrite K; reflexivity|unfold joining, stk; rewrite K; reflexivity].
  - assert (L : rx2_params (w_st w) = lora (uw_rx2_dr (stk w)) true) by (apply Lo; rewrite C; discriminate).
    apply (WC_rx1to _ _ _ _ _ _ m A B); [unfold st_phase; rewrite C; reflexivity|exact D|unfold st_phase, ph, stk; rewrite G; reflexivity|rewrite F, <- L; reflexivity|unfold stk at 1; rewrite G, <- L; reflexivity|unfold joining, stk; rewrite G; reflexivity].
  - apply (WC_end _ _ _ _ _ _ m pre rd e t vw A B); auto.
    + unfold st_phase. destruct C as [-> | ->]; auto.
    + unfold st_phase. rewrite D. reflexivity.
    + intro Q. apply N1. unfold st_phase in Q. destruct (ph w); congruence.
    + intro Q. apply N2. unfold st_phase in Q. destruct (ph w); congruence.
  - destruct (timer_evs t (w_st w)) as [|x l] eqn:Et.
    + apply WC_quiet; [subst es; reflexivity|apply same_phase_refl; exact D|subst o; discriminate|subst o; discriminate| |subst o; intros [Q|Q]; discriminate Q].
      intros t' Q. split; [exact C|]. assert (t' = t) by congruence. subst t'. unfold timer_evs in Et. unfold st_phase, ph, stk.
      destruct (uw_state (s_stk (w_st w))), t; try discriminate Et; intuition congruence.
    + rewrite <- Et in C. unfold timer_evs in C, Et. apply (WC_rx _ _ _ _ _ _ t A B D); unfold st_phase, ph, stk in *;
        destruct (uw_state (s_stk (w_st w))), t; try discriminate Et; auto.
  - apply WC_quiet; [subst es; reflexivity|apply same_phase_refl; exact D|subst o; discriminate| |subst o; discriminate|subst o; intros [Q|Q]; discriminate Q].
    intros m' Q. split; [exact C|]. assert (m' = m) by congruence. subst m'. unfold st_phase.
    destruct F as [F|[F|[(F & F1)|([F|F] & F1)]]]; rewrite F; auto 10.
  - apply WC_quiet; [exact A|exact B|exact N2|intros m Q; exfalso; exact (N1 m Q)|intros t Q; exfalso; exact (N3 t Q)|intro Q; apply N4; exact Q].
Qed.

Lemma link_tx es l : link es = l -> tx_frames es = tx_frames l.
Proof. intros <-. symmetry. apply tx_of_link. Qed.
Lemma map_time_tx ts : tx_frames (map MGetTime ts) = [].
Proof. induction ts as [|t ts IH]; [reflexivity|exact IH]. Qed.
Lemma tune_times ts x : fold_left tune_step (map MGetTime ts) x = x.
Proof. induction ts as [|t ts IH]; [reflexivity|exact IH]. Qed.
Lemma due_times ts x : fold_left due_ev (map MGetTime ts) x = x.
Proof. induction ts as [|t ts IH]; [reflexivity|exact IH]. Qed.

Lemma phase_follow E w o v es w' : win_case E w o v es w' -> st_phase w' = phase_step (st_phase w) (o, v, es).
Proof.
  intros [r A B C|fr pw f A B C D F _ _ _ _|m ts A B C D F G _ _|m A B C D F G _ _|m pre rd e t vw A B C D N1 N2 F G J _|t A B C D F|A B N1 N2 N3 N4].
  - subst o. exact C.
  - rewrite D, C. apply link_tx in F. cbn [tx_frames] in F. unfold phase_step. destruct A as [-> | A]; [rewrite F; reflexivity|].
    destruct o; try discriminate A; rewrite F; reflexivity.
  - subst o. cbn [phase_step]. rewrite C, D, F. reflexivity.
  - subst o. cbn [phase_step]. rewrite C, D, F. reflexivity.
  - subst o. cbn [phase_step]. rewrite D. destruct C as [C|C]; rewrite C in *.
    + destruct (N1 eq_refl) as (-> & ->). reflexivity.
    + destruct (N2 eq_refl) as [-> | ->]; [reflexivity|]. rewrite Bool.orb_true_r. reflexivity.
  - subst o es. cbn. unfold st_phase, ph, stk. rewrite C. reflexivity.
  - apply link_tx in A. cbn [tx_frames] in A. assert (Q : st_phase w' = st_phase w) by (unfold st_phase; rewrite (sp_state _ _ B); reflexivity).
    rewrite Q. unfold phase_step. destruct o; rewrite ?A; try reflexivity; [exfalso; exact (N1 _ eq_refl)|].
    destruct (N2 _ eq_refl) as (_ & [-> |[-> |[(-> & ->)|([-> | ->] & -> & ->)]]]); reflexivity.
Qed.
Lemma phase_sound E ops tr w : env_ok E -> Forall op_wf ops -> exec E world0 ops tr w -> st_phase w = phase_of tr.
Proof.
  intro HE. revert ops tr w. apply (exec_snoc_ind E (fun tr w => st_phase w = phase_of tr) HE); [reflexivity|].
  intros ops tr w o v es w' _ _ HI _ IH Hw H. unfold phase_of. rewrite fold_left_app. cbn [fold_left].
  rewrite (phase_follow E w o v es w' (step_win E w o v es w' HE HI Hw H)), IH. reflexivity.
Qed.
Lemma phase_exec E w ops tr w' : env_ok E -> Inv (w_st w) -> Forall op_wf ops -> exec E w ops tr w' ->
  st_phase w' = fold_left phase_step tr (st_phase w).
Proof.
  intros HE HI Hw Hx. induction Hx as [w|w o ops v es w1 tr w2 H Hx IH]; [reflexivity|].
  inversion Hw as [|? ? W1 W2]; subst. cbn [fold_left].
  rewrite <- (phase_follow E w o v es w1 (step_win E w o v es w1 HE HI W1 H)). apply IH; [exact (step_Inv E w o v es w1 HE HI W1 H)|exact W2].
Qed.

(** ** The radio *)
Definition tuned (w : world) : Prop :=
  let x := radio (w_hist w) in
  match st_phase w with
  | P_tx => t_par x = pkt_params (stk w) /\ t_up_par x = t_par x /\ t_up_freq x = t_freq x
  | P_rx1 => t_par x = pkt_params (stk w) /\ t_up_freq x = t_freq x /\ p_inverted_iq (t_par x) = true
  | P_rx2 => t_par x = pkt_params (stk w) /\ p_inverted_iq (t_par x) = true
  | _ => True
  end.
Lemma step_hist E w o v es w' : step E w o = Some (v, es, w') -> w_hist w' = w_hist w ++ es.
Proof. unfold step. destruct (call _ _ _ _) as [[[v0 s0] es0]|]; [|discriminate]. intro H. injection H as <- <- <-. reflexivity. Qed.
Lemma tuned_step E w o v es w' : env_ok E -> Inv (w_st w) -> op_wf o -> step E w o = Some (v, es, w') -> tuned w -> tuned w'.
Proof.
  intros HE HI Hw H T. unfold tuned in *. cbv zeta in *.
  rewrite (step_hist _ _ _ _ _ _ H). unfold radio. rewrite fold_left_app. fold (radio (w_hist w)). rewrite <- tune_link.
  destruct (step_win E w o v es w' HE HI Hw H) as [r A B C|fr pw f A B C D F G _ _ _|m ts A B C D F G K _|m A B C D F G K _|m pre rd e t vw A B C D N1 N2 F G J _|t A B C D F|A B N1 N2 N3 N4].
  - rewrite C. exact I.
  - rewrite D, F, G. cbn. auto.
  - rewrite C in T. rewrite F, G, fold_left_app, tune_times. cbn. rewrite K. destruct T as (_ & _ & T). split; [reflexivity|]. split; [exact T|].
    reflexivity.
  - rewrite F, G, K. split; reflexivity.
  - rewrite D. exact I.
  - assert (Q : st_phase w' = st_phase w) by (unfold st_phase, ph, stk; rewrite C; reflexivity). rewrite Q, F. cbn. unfold stk in *. rewrite C. exact T.
  - assert (Q : st_phase w' = st_phase w) by (unfold st_phase; rewrite (sp_state _ _ B); reflexivity). rewrite Q, A, (sp_prm _ _ B). exact T.
Qed.
Lemma exec_tuned E ops tr w : env_ok E -> Forall op_wf ops -> exec E world0 ops tr w -> tuned w.
Proof.
  intro HE. revert ops tr w. apply (exec_snoc_ind E (fun _ w => tuned w) HE); [exact I|].
  intros ops tr w o v es w' _ _ HI _ IH Hw H. exact (tuned_step E w o v es w' HE HI Hw H IH).
Qed.
