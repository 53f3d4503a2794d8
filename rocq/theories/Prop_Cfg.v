(** Prop_Cfg.v -- settings: C21, C34, C35. *)
From Verif Require Import LCfg Prop_Mac Prop_Join Prop_Down Prop_Chan Prop_Win.

(** ** C21 RX1 delay from the network is honoured *)
(** The network sets the RX1 delay to [s] seconds: an accepted frame whose last
    RXTimingSetupReq is reached (the answers before it fit into the queue), or an
    accepted join-accept. *)
Inductive network_delay (E : env) (w : world) (m : Z) (es : list ev) : Z -> Prop :=
| ND_timing fo cs1 d cs2 : accepted_fopts E w m es fo -> mac_parse fo = cs1 ++ RXTimingSetupReq d :: cs2 ->
    (forall d', ~ In (RXTimingSetupReq d') cs2) -> len (fopts w) + answers_len cs1 <= 15 ->
    network_delay E w m es (Z.max 1 d)
| ND_join view : receives w m -> joining w = true -> callbacks es = [(ERR_NO, MTYPE_JOIN_ACCEPT, view)] ->
    network_delay E w m es (Z.max 1 (at_ (ja_clear E (app_key w) (rx_data (received E w))) 12 mod 16)).

Theorem C21_set : forall E w m v es w' s,
  env_ok E -> reachable E w -> op_wf (OIrq m) -> step E w (OIrq m) = Some (v, es, w') -> network_delay E w m es s ->
  default_rx1_delay (stk w') = 1000 * s.
Proof.
  intros E w m v es w' s HE Hr Hw H N. pose proof (reach_Inv E w HE Hr) as HI. destruct N as [fo cs1 d cs2 Ha P L F|view R J C].
  - destruct (accepted_run E w m v es w' _ HE HI H Ha) as (X & _ & _). apply (f_equal fst) in X. cbn [fst] in X.
    change (default_rx1_delay (stk w')) with (v_rx1_delay (dev_w w')). rewrite X, P. apply run_sets_delay; [exact F|].
    rewrite <- not_true_iff_false. intro Q. apply existsb_exists in Q. destruct Q as (c & Q1 & Q2). destruct c; try discriminate Q2. exact (L _ Q1).
  - destruct (C26_accepted_fields E w m v es w' view HE Hr Hw R J H C) as (_ & an & ni & addr & dl & rxd & cf & mic & Q & _ & _ & Ins).
    rewrite (in_delay _ _ _ _ _ _ _ _ _ _ _ Ins), Q. reflexivity.
Qed.
Print Assumptions C21_set.
(** Every data uplink after that opens its windows at [s] and [s + 1] seconds,
    until the delay is changed again; join-requests use 5 and 6 seconds. *)
Theorem C21_honoured : forall E w0 m0 v0 es0 w1 s ops0 tr0 w o v es w2 f ops tr w3 m v' es' w4,
  env_ok E -> reachable E w0 -> op_wf (OIrq m0) -> step E w0 (OIrq m0) = Some (v0, es0, w1) -> network_delay E w0 m0 es0 s ->
  Forall op_wf ops0 -> exec E w1 ops0 tr0 w -> Forall (fun t => delay_entry t = false) tr0 ->
  C31_setting E w o v es w2 f ops tr w3 m v' es' w4 ->
  timers (es ++ all_evs tr ++ es') =
    match o with OJoin => [(TIMER_RX1, 5000); (TIMER_RX2, 6000)] | _ => [(TIMER_RX1, 1000 * s); (TIMER_RX2, 1000 * (s + 1))] end.
Proof.
  intros E w0 m0 v0 es0 w1 s ops0 tr0 w o v es w2 f ops tr w3 m v' es' w4 HE Hr Hw H N Ho Hx Nd S.
  pose proof (C21_set E w0 m0 v0 es0 w1 s HE Hr Hw H N) as D0.
  pose proof (step_Inv E w0 _ v0 es0 w1 HE (reach_Inv E w0 HE Hr) Hw H) as HI1.
  rewrite <- (exec_delay E w1 ops0 tr0 w HE HI1 Ho Hx Nd) in D0.
  destruct (C31_timers _ _ _ _ _ _ _ _ _ _ _ _ _ _ S) as (T & _). rewrite T.
  replace (1000 * (s + 1)) with (1000 * s + 1000) by lia. destruct o; try reflexivity; rewrite D0; reflexivity.
Qed.
Print Assumptions C21_honoured.

Definition timers_are (es : list ev) (l : list Z) : bool := list_eqb (map snd (timers es)) l.
Definition quiet_delays (tr : list entry) : bool := forallb (fun t => negb (delay_entry t)) tr.
(** DevStatusReq and RXTimingSetupReq(3), then a data rate change, a confirmed
    uplink and its windows *)
Example C21_timing_case : run_of (demo [] [(dl 8 false 0 [6; 8; 3] None, 9)]) (abp 0 7 ++ after_uplink)
  [OIrq 2; OSetDr 3; OSend 1 [7] true; OIrq 4]
  (fun w tr w' => recvb w 2 && cb_is ERR_NO (all_evs tr) && quiet_delays (skipn 1 tr) && timers_are (all_evs tr) [3000; 4000] &&
     (default_rx1_delay (stk w) =? 1000)).
Proof. show_run. Qed.
(** delay 0 means 1 s; the old delay was 7 s *)
Example C21_zero_case : run_of (demo [] [(dl 8 false 0 [8; 0] None, 9)]) (abp 0 7 ++ [OSetRx1Delay 7] ++ after_uplink)
  [OIrq 2; OSend 1 [7] true; OIrq 4]
  (fun w tr w' => recvb w 2 && cb_is ERR_NO (all_evs tr) && quiet_delays (skipn 1 tr) && timers_are (all_evs tr) [1000; 2000] &&
     (default_rx1_delay (stk w) =? 7000)).
Proof. show_run. Qed.

(** ** C34 Configuration always stays in range *)
Theorem C34_settings : forall E w, env_ok E -> reachable E w ->
  let c := config_of w in
  (0 <= c_dr c <= 5 /\ 0 <= ses_dr (ses w) <= 5 /\ 0 <= up_dr w <= 5 /\ 0 <= c_off c <= 5 /\ 0 <= c_rx2dr c <= 5) /\
  (1 <= c_nb0 c <= 15 /\ 1 <= c_nb c <= 15) /\ (0 <= c_pw0 c <= 7 /\ 0 <= c_pw c <= 7) /\
  (exists s, 1 <= s <= 15 /\ c_delay c = 1000 * s) /\
  (forall i, 0 <= i < 16 -> chan_freq w i = 0 \/ 860000000 <= chan_freq w i <= 870000000) /\
  (forall i, 0 <= i < 16 -> chan_on w i = true -> chan_freq w i <> 0) /\
  (uw_state (stk w) <> NOT_INIT -> 860000000 <= c_rx2f c <= 870000000).
Proof.
  intros E w HE Hr c. pose proof (reach_Inv E w HE Hr) as HI. destruct HI as [HC HA HM HS HK HCs].
  pose proof (tk_ddr _ HK). pose proof (sk_dr _ HS). pose proof (tk_off _ HK). pose proof (tk_rx2dr _ HK). pose proof (tk_dnb _ HK).
  pose proof (tk_nb _ HK). pose proof (tk_dtxp _ HK). pose proof (tk_txp _ HK). pose proof (tk_rx2f _ HK) as Rf. pose proof (tk_init _ HK) as Ti.
  unfold c, config_of, stk, ses, up_dr. cbn [c_dr c_nb0 c_nb c_eirp c_pw0 c_pw c_off c_delay c_rx2f c_rx2dr].
  split; [|split; [|split; [|split; [|split; [|split]]]]].
  - unfold stk, ses. destruct (adr_on w); lia.
  - lia.
  - lia.
  - exact (tk_ddel _ HK).
  - intros i Hi. rewrite chan_freq_cfreq. exact (ck_freq _ HC i Hi).
  - intros i Hi. rewrite chan_freq_cfreq, chan_on_cbit; [|constructor; assumption|exact Hi]. intro Q. exact (proj2 (ck_on _ HC i Hi Q)).
  - intro N. destruct (Ti N) as (_ & Q & _). destruct Rf as [Rf|Rf]; [contradiction|exact Rf].
Qed.
Print Assumptions C34_settings.
(** extremes of every setting, some from the network *)
Example C34_settings_case : run_of (demo [] [(dl 8 false 0 ([5; 80] ++ le 3 8600000 ++ [8; 15] ++ [3; 7; 1; 0; 15]) None, 9)]) (abp 0 7 ++ after_uplink)
  [OIrq 2; OSetRx2 870000000 5; OSetChannel 5 860000000; OSetDr 5; OSetDr 6; OSetNb 16; OSetTxp 8; OSetRx1Delay 16; OSetRx1Off 6]
  (fun w tr w' => cb_is ERR_NO (all_evs tr) && (c_rx2f (config_of w') =? 870000000) && (c_nb (config_of w') =? 15) && (c_off (config_of w') =? 5) &&
     (c_delay (config_of w') =? 15000) && (c_pw (config_of w') =? 7) && (up_dr w' =? 5) && (chan_freq w' 5 =? 860000000)).
Proof. show_run. Qed.
(** so everything ever asked of the radio and the timers is in range *)
Lemma range_link es : Forall in_range (link es) -> Forall in_range es.
Proof.
  intro F. induction es as [|e es IH]; [constructor|]. unfold link in F. cbn [filter] in F. destruct (is_link e) eqn:L.
  - inversion F; subst. constructor; [assumption|apply IH; assumption].
  - constructor; [destruct e; try discriminate L; exact I|apply IH; exact F].
Qed.
Theorem C34_requests : forall E ops tr w, env_ok E -> Forall op_wf ops -> exec E world0 ops tr w -> Forall in_range (all_evs tr).
Proof.
  intros E ops tr w HE. revert ops tr w. apply (exec_snoc_ind E (fun tr _ => Forall in_range (all_evs tr)) HE).
  - constructor.
  - intros ops tr w o v es w' Ho Hx HI Hr IH Hw H. unfold all_evs in *. rewrite flat_map_app. apply Forall_app. split; [exact IH|].
    cbn [flat_map]. rewrite app_nil_r. change (evs_of (o, v, es)) with es. clear IH.
    pose proof (cur_dr_range (w_st w) HI) as Cr. pose proof (tk_ddr _ (iv_stk _ HI)) as Dr.
    assert (Ml : forall ts, Forall in_range (map MGetTime ts)) by (induction ts; constructor; [exact I|assumption]).
    apply range_link. destruct (step_win E w o v es w' HE HI Hw H) as [r A B C|fr pw f A B C D F G K1 K2 _|m ts A B C D F G K _|m A B C D F G K _|m pre rd e t vw A B C D N1 N2 F G J _|t A B C D F|A B N1 N2 N3 N4].
    + rewrite B. constructor.
    + assert (Tf : tx_frames es = [f]) by (rewrite <- tx_of_link, F; reflexivity).
      destruct (C06_enabled_legal_channel E w o v es w' HE Hr Hw H) as (i & prm & power & f2 & Hi & On & Lg & pre & mid & Q & Q1 & Q2); [rewrite Tf; discriminate|].
      assert (Fq : freqs es = [chan_freq w i]).
      { rewrite Q, !freqs_app. rewrite (off_freqs pre Q1), (off_freqs mid Q2). reflexivity. }
      rewrite <- freqs_link, F in Fq. cbn [freqs] in Fq. injection Fq as ->.
      assert (Ln : 12 <= len f <= 235) by (apply (C04_frame_size_pf E w o v es w' f HE Hr Hw H); rewrite Tf; left; reflexivity).
      rewrite F. repeat constructor; try assumption; try lia.
      exists (tx_dr_of o w), false. split; [|reflexivity]. unfold tx_dr_of. destruct o; fold (up_dr w); unfold stk; change (up_dr w) with (cur_dr (w_st w)); lia.
    + destruct (tx_delays E ops tr w HE Ho Hx C) as (s & S1 & S2 & S3). rewrite G. apply Forall_app. split; [|apply Ml].
      repeat constructor.
      * exists s. split; [exact S1|lia].
      * exists s. split; [exact S1|lia].
      * assert (U : uw_state (s_stk (w_st w)) = TX) by (unfold st_phase, ph, stk in C; destruct (uw_state (s_stk (w_st w))); congruence).
        destruct (rx1_params_ok (w_st w) HI U) as (A1 & A2 & A3 & A4 & A5 & A6 & A7). exists (6 - p_sf (rx1_params (w_st w))), true. split; [lia|].
        clear - A1 A2 A3 A4 A5 A6 A7. destruct (rx1_params (w_st w)) as [a b c d0 e g i]. cbn [p_sf p_bw p_cr p_preamble_len p_crc_on p_inverted_iq p_implicit_header] in *.
        subst b c d0 e g i. unfold lora, dr_sf. f_equal. lia.
    + rewrite G. assert (U : uw_state (stk w) <> NOT_INIT) by (unfold st_phase, ph in C; destruct (uw_state (stk w)); congruence).
      destruct (C34_settings E w HE Hr) as ((_ & _ & _ & _ & R1) & _ & _ & _ & _ & _ & R2). specialize (R2 U). cbn in R1, R2.
      repeat constructor; [lia|lia|]. exists (uw_rx2_dr (stk w)), true. split; [exact R1|reflexivity].
    + rewrite F, link_app. apply Forall_app. split; [|repeat constructor]. rewrite G. apply Forall_app. split; [unfold rx_pre; destruct (uw_state (stk w)); repeat constructor|].
      destruct J as [(-> & _)|(-> & _)]; repeat constructor.
    + rewrite F. repeat constructor.
    + rewrite A. constructor.
Qed.
Print Assumptions C34_requests.
Example C34_requests_case : run_of (demo [] []) [] (abp 0 7 ++ [OSetDr 5; OSetRx1Off 2; OSetRx1Delay 15; OSend 1 [7] true; OIrq 4; OTimer TIMER_RX1; OIrq 1; OTimer TIMER_RX2; OIrq 1])
  (fun w tr w' => timers_are (all_evs tr) [15000; 16000] && (length (freqs (all_evs tr)) =? 2)%nat && (length (setups (all_evs tr)) =? 3)%nat).
Proof. show_run. Qed.

(** ** C35 Setters validate their argument *)
(** what the setter reports, and whether the argument is valid *)
Definition setter_valid (o : op) : option bool :=
  match o with
  | OSetDr d => Some (d <=? 5)
  | OSetNb n => Some ((1 <=? n) && (n <=? 15))
  | OSetTxp p => Some (p <=? 7)
  | OSetRx1Off x => Some (x <=? 5)
  | OSetRx1Delay d => Some ((1 <=? d) && (d <=? 15))
  | OSetRx2 f d => Some ((860000000 <=? f) && (f <=? 870000000) && (d <=? 5))
  | _ => None
  end.
Definition setter_value (o : op) (b : bool) (v : val) : Prop :=
  match o with
  | OSetDr _ => v = VUnit                                       (* void *)
  | OSetRx2 f d => if b then v = VErr ERR_NO else v = VErr (if 5 <? d then ERR_DATARATE else ERR_FREQUENCY)
  | _ => v = VBool b
  end.
(** what it writes *)
Definition setter_apply (o : op) (s : st) : st :=
  match o with
  | OSetDr d => on_stk (set_default_dr d) (on_ses (set_ses_dr d) s)
  | OSetNb n => on_stk (fun k => set_default_nb_trans n (set_uw_nb_trans n k)) s
  | OSetTxp p => on_stk (fun k => set_default_tx_power p (set_uw_tx_power p k)) s
  | OSetRx1Off x => on_stk (set_uw_rx1_offset x) s
  | OSetRx1Delay d => on_stk (set_default_rx1_delay (1000 * d)) s
  | OSetRx2 f d => on_stk (fun k => set_uw_rx2_dr d (set_uw_rx2_frequency f k)) s
  | _ => s
  end.
(** in-range enum arguments and all uint8_t/uint32_t ones (op_wf) *)
Theorem C35_setters_partial : forall E w o b,
  env_ok E -> reachable E w -> op_wf o -> setter_valid o = Some b ->
  exists v, setter_value o b v /\
    step E w o = Some (v, [], Mk_world (if b then setter_apply o (w_st w) else w_st w) (w_hist w)).
Proof.
  intros E w o b HE Hr Hw Hb. pose proof (reach_Inv E w HE Hr) as HI.
  assert (G : exists v, setter_value o b v /\ simple o (w_st w) = Some (v, if b then setter_apply o (w_st w) else w_st w)).
  { destruct o; try discriminate Hb; cbn [setter_valid setter_value setter_apply simple op_wf] in *; unfold is_u8, is_u32 in Hw; injection Hb as Hb.
    - unfold is_valid_frequency, FREQ_MIN, FREQ_MAX. destruct (5 <? dr) eqn:A; destruct b; try (exfalso; lia);
        (destruct ((860000000 <=? frequency) && (frequency <=? 870000000)) eqn:B); try (exfalso; lia); eexists; split; reflexivity.
    - replace (dr <? 6) with b by lia. exists VUnit. split; [reflexivity|destruct b; reflexivity].
    - rewrite Hb. destruct b; eexists; split; reflexivity.
    - replace (tx_power <? 8) with b by lia. destruct b; eexists; split; reflexivity.
    - replace (rx1_dr_offset <? 6) with b by lia. destruct b; eexists; split; reflexivity.
    - rewrite Hb, (Z.mul_comm delay). destruct b; eexists; split; reflexivity. }
  destruct G as (v & G1 & G2). exists v. split; [exact G1|]. exact (simple_step E w o v _ HI Hw G2).
Qed.
Print Assumptions C35_setters_partial.
Example C35_valid_case : case_of (demo [] []) (abp 0 7) (OSetRx2 869525000 3)
  (fun w v es w' => returns ERR_NO v && (uw_rx2_frequency (stk w') =? 869525000) && (uw_rx2_dr (stk w') =? 3) && (uw_rx2_dr (stk w) =? 0)).
Proof. show_case. Qed.
Example C35_invalid_case : case_of (demo [] []) (abp 0 7) (OSetRx2 915000000 3)
  (fun w v es w' => returns ERR_FREQUENCY v && (uw_rx2_frequency (stk w') =? 868100000)).
Proof. show_case. Qed.

(** The range check takes a uint8_t (src/utils.h), so an enum value of 256 passes
    for DR0 and is stored: no payload fits any more and a join-request reads past
    the table of spreading factors. *)
Theorem C35_refuted : exists E w w', env_ok E /\ reachable E w /\
  step E w (OSetDr 256) = Some (VUnit, [], w') /\ default_dr (stk w') = 256 /\ up_dr w' = 256 /\
  step E w' OGetMax = Some (VNum 0, [], w') /\ call E OJoin (w_hist w') (w_st w') = Undef UB_oob.
Proof.
  exists (demo [] []), (after (demo [] []) (abp 0 7)).
  destruct (step (demo [] []) (after (demo [] []) (abp 0 7)) (OSetDr 256)) as [[[v es] w']|] eqn:H; [|vm_compute in H; discriminate H].
  exists w'. split; [apply demo_ok|]. split; [apply after_reach; vm_compute; reflexivity|]. vm_compute in H. injection H as <- <- <-.
  repeat split; vm_compute; reflexivity.
Qed.
Print Assumptions C35_refuted.
Theorem C35_rx2_refuted : exists E w w', env_ok E /\ reachable E w /\
  step E w (OSetRx2 869525000 256) = Some (VErr ERR_NO, [], w') /\ uw_rx2_dr (stk w') = 256.
Proof.
  exists (demo [] []), (after (demo [] []) (abp 0 7)).
  destruct (step (demo [] []) (after (demo [] []) (abp 0 7)) (OSetRx2 869525000 256)) as [[[v es] w']|] eqn:H; [|vm_compute in H; discriminate H].
  exists w'. split; [apply demo_ok|]. split; [apply after_reach; vm_compute; reflexivity|]. vm_compute in H. injection H as <- <- <-.
  repeat split; vm_compute; reflexivity.
Qed.
Print Assumptions C35_rx2_refuted.
