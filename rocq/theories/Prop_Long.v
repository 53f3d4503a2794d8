(** Prop_Long.v -- runs of any length, and what happens when a 32-bit counter is used up
    (C38). *)
From Verif Require Import LAdr LClock Demo Prop_Uplink Prop_Chan Prop_Win Prop_Adr Prop_Safe.

Definition adr_par (w : world) : bool * Z := (adr_on w, adr_limit w).
(** a state from which unanswered uplinks can go on for ever: [n] on the count, nothing
    under way, channel [i] enabled, DR0,
    ADR switched and its limit set as [a] says *)
Record steady (E : env) (i : Z) (a : bool * Z) (tr : list entry) (w : world) (n : Z) : Prop := Mk_steady {
  sd_run : exists ops, Forall op_wf ops /\ exec E world0 ops tr w;
  sd_count : counted E tr w n;
  sd_chan : chan_on w i = true;
  sd_dr : ses_dr (ses w) = 0;
  sd_adr : adr_par w = a;
  sd_time : time_pending tr = false
}.
Lemma steady_reach E i a tr w n : steady E i a tr w n -> reachable E w.
Proof. intros [(ops & Ho & Hx) _ _ _ _ _]. exists ops, tr. auto. Qed.

Lemma not_accepted es : handed_ok es = false -> ~ accepts_join es.
Proof.
  intros H (v & X). assert (Y : In (ERR_NO, MTYPE_JOIN_ACCEPT, v) (callbacks es)) by (clear H; induction es as [|e es IH]; [destruct X|destruct X as [-> |X]; [left; reflexivity|destruct e; cbn [callbacks flat_map app]; try (right; exact (IH X)); exact (IH X)]]).
  assert (handed_ok es = true) by (apply existsb_exists; eexists; split; [exact Y|reflexivity]). congruence.
Qed.
Definition quiet_op (o : op) : Prop := match o with OTimer _ => True | OIrq m => Z.testbit m 1 = false | _ => False end.
Lemma steady_quiet E i a tr w n o : env_ok E -> e_strict_shl E = false -> 0 <= i < 16 -> steady E i a tr w n -> op_wf o -> quiet_op o ->
  exists v es w', step E w o = Some (v, es, w') /\ steady E i a (tr ++ [(o, v, es)]) w' n /\ st_phase w' = phase_step (st_phase w) (o, v, es) /\
    data_frames [(o, v, es)] = [] /\ handed_ok es = false.
Proof.
  intros HE Hs Hi S Ho Hq. pose proof (steady_reach _ _ _ _ _ _ S) as Hr. pose proof (reach_Inv E w HE Hr) as HI.
  destruct S as [(ops & Hw & Hx) Hc Hch Hdr Ha Ht].
  destruct (C36_returns_partial E ops tr w o HE Hw Hx Ho Hs) as (v & es & w' & H); [intros; destruct o; discriminate || contradiction|auto|].
  pose proof (phase_follow E w o v es w' (step_win E w o v es w' HE HI Ho H)) as Hp.
  assert (R : ses w' = ses w /\ s_ch (w_st w') = s_ch (w_st w) /\ s_adr (w_st w') = s_adr (w_st w) /\ (callbacks es = [] \/ exists e, e <> ERR_NO /\ callbacks es = [(e, 0, no_view)])).
  { destruct o; try contradiction.
    - apply step_inv in H; try assumption. inversion H as [o0 v0 s0 X| | | |t0 Q1 Q2 Q3 Q4| | | | | |]; [discriminate X|]. unfold ses. rewrite <- Q4. split; [reflexivity|]. split; [reflexivity|]. split; [reflexivity|].
      left. apply timer_evs_cb.
    - assert (N : ~ receives w mask) by (intros (_ & _ & X & _); cbn [quiet_op] in Hq; rewrite Hq in X; discriminate X).
      destruct (norx_step E w mask v es w' HE HI H N); auto. }
  destruct R as (R1 & R2 & R4 & R3).
  assert (Hn : handed_ok es = false) by (unfold handed_ok; destruct R3 as [-> |(e & N & ->)]; [reflexivity|destruct e; try reflexivity; congruence]).
  assert (Hd : data_frames [(o, v, es)] = []).
  { pose proof (C30_accepted E w o v es w' HE Hr Ho H) as Hnum. assert (tx_frames es = []) as Q.
    { destruct o; try contradiction; cbn [is_uplink_call orb] in Hnum; unfold number in Hnum; destruct (tx_frames es); reflexivity || (cbn [length] in Hnum; lia). }
    destruct o; try contradiction; cbn; rewrite Q; reflexivity. }
  exists v, es, w'. split; [exact H|]. split; [|split; [exact Hp|split; [exact Hd|exact Hn]]].
  constructor.
  - exists (ops ++ [o]). split; [apply Forall_app; auto|]. eapply exec_app; [exact Hx|]. econstructor; [exact H|constructor].
  - pose proof (counted_S E tr w n o v es w' Hc Ho H) as K.
    replace (restarts w (o, v, es)) with false in K by (destruct o; try contradiction; cbn [restarts]; rewrite ?Hn, ?andb_false_r; reflexivity).
    rewrite (is_up_no _ Hd) in K. exact K.
  - unfold chan_on. rewrite R2. exact Hch.
  - rewrite R1. exact Hdr.
  - rewrite <- Ha. unfold adr_par, adr_on, adr_limit. rewrite R4. reflexivity.
  - unfold time_pending in *. rewrite fold_left_app, Ht. cbn [fold_left]. destruct o; try contradiction; cbn [pending_step]; destruct (tx_ended es); reflexivity.
Qed.

Lemma send_accepted E i w p d : env_ok E -> reachable E w -> 0 <= i < 16 -> chan_on w i = true -> idle w -> op_wf (OSend p [d] false) ->
  exists es w' f, step E w (OSend p [d] false) = Some (VErr ERR_NO, es, w') /\ tx_frames es = [f].
Proof.
  intros HE Hr Hi Hch Hid Ho. set (o := OSend p [d] false) in *. pose proof (reach_Inv E w HE Hr) as HI.
  destruct (C04_result_code E w p [d] false HE Hr Ho Hid) as (e & es & w' & H & Hres). fold o in H.
  assert (e = ERR_NO).
  { inversion Hres as [Hno|Hso Hl|]; [|exfalso|reflexivity].
    - rewrite (Hno i Hi) in Hch. discriminate.
    - destruct Hl as [Hl|[Hl _]]; [|discriminate]. unfold max_payload in Hl.
      assert (51 <= dr_max (up_dr w)) by (unfold dr_max; repeat match goal with |- context [if ?b then _ else _] => destruct b end; lia).
      assert (len (fopts w) <= 15) by (apply fopts_len; exact HI). change (len [d]) with 1 in Hl. lia. }
  subst e.
  pose proof (C30_accepted E w o _ es w' HE Hr Ho H) as Hnum. cbn [o is_uplink_call orb] in Hnum.
  assert (Hf : exists f, tx_frames es = [f]) by (unfold number in Hnum; destruct (tx_frames es) as [|f [|]]; cbn [length] in Hnum; [lia|eauto|lia]).
  destruct Hf as [f Hf]. exists es, w', f. auto.
Qed.

Lemma steady_send E i a tr w n p d : env_ok E -> e_strict_shl E = false -> 0 <= i < 16 -> steady E i a tr w n -> st_phase w = P_idle -> op_wf (OSend p [d] false) ->
  exists v es w' f, step E w (OSend p [d] false) = Some (v, es, w') /\ steady E i a (tr ++ [(OSend p [d] false, v, es)]) w' (n + 1) /\ st_phase w' = P_tx /\
    data_frames [(OSend p [d] false, v, es)] = [f] /\ handed_ok es = false.
Proof.
  intros HE Hs Hi S Hp Ho. set (o := OSend p [d] false) in *. pose proof (steady_reach _ _ _ _ _ _ S) as Hr. pose proof (reach_Inv E w HE Hr) as HI.
  destruct S as [(ops & Hw & Hx) Hc Hch Hdr Ha Ht].
  assert (Hid : idle w) by (unfold idle; unfold st_phase, ph in Hp; destruct (uw_state (stk w)); discriminate || reflexivity).
  destruct (send_accepted E i w p d HE Hr Hi Hch Hid Ho) as (es & w' & f & H & Hf). fold o in H.
  pose proof (phase_follow E w o _ es w' (step_win E w o _ es w' HE HI Ho H)) as Hph.
  assert (Hd : data_frames [(o, VErr ERR_NO, es)] = [f]) by (cbn; rewrite Hf; reflexivity).
  assert (Hdr' : ses_dr (ses w') = 0 /\ adr_par w' = adr_par w).
  { unfold adr_par, adr_on, adr_limit. destruct (step_adr E w o _ es w' HE HI Ho H) as [b A|l0 d0 A|f0 A B C D F|m A|m A|[[r A]|[(q & u & x & y & z & A)|[x A]]]|A B C]; try discriminate A.
    - rewrite C, D. unfold r_uplink_dr, r_uplink_adr, backs_off. unfold ses in Hdr. rewrite Hdr. split; reflexivity.
    - rewrite Hd in C. discriminate. }
  destruct Hdr' as [Hdr' Ha']. exists (VErr ERR_NO), es, w', f. split; [exact H|]. split; [|split; [rewrite Hph; cbn; rewrite Hf; reflexivity|split; [exact Hd|]]].
  2: { destruct (step_adr E w o _ es w' HE HI Ho H) as [b A|l0 d0 A|f0 A B C D F|m A|m A|[[r A]|[(q & u & x & y & z & A)|[x A]]]|A B C F]; try discriminate A; [apply delivered_nil; exact F|exact F]. }
  constructor.
  - exists (ops ++ [o]). split; [apply Forall_app; auto|]. eapply exec_app; [exact Hx|]. econstructor; [exact H|constructor].
  - pose proof (counted_S E tr w n o _ es w' Hc Ho H) as K. cbn [restarts o] in K. rewrite (is_up_yes _ _ Hd), Hdr, Hdr' in K. exact K.
  - destruct (C08_table_entries E w i HE Hr Hi) as (_ & T & _).
    destruct (C08_table_entries E w' i HE (step_reach E w o _ es w' Hr Ho H) Hi) as (_ & T' & _).
    rewrite (C08_other_calls E w o _ es w' HE Hr Ho H I), T in T'. congruence.
  - exact Hdr'.
  - congruence.
  - unfold time_pending in *. rewrite fold_left_app, Ht. cbn [fold_left o pending_step]. destruct (tx_ended es); reflexivity.
Qed.

(** an unanswered uplink of the byte [d], [N] times *)
Lemma long_run E i a tr w n : env_ok E -> e_strict_shl E = false -> 0 <= i < 16 -> steady E i a tr w n -> st_phase w = P_idle -> forall N : nat,
  exists tr' w', exec E w (times N alone) tr' w' /\ steady E i a (tr ++ tr') w' (n + Z.of_nat N) /\ st_phase w' = P_idle /\ length (data_frames tr') = N /\
    Forall (fun t => ~ new_session_entry t) tr'.
Proof.
  intros HE Hs Hi Sd Hp N. induction N as [|N IH].
  - exists [], w. rewrite Z.add_0_r, app_nil_r. split; [exact (exec_nil E w)|]. split; [assumption|]. split; [assumption|]. split; [reflexivity|constructor].
  - destruct IH as (t0 & w0 & X0 & S0 & P0 & L0 & F0).
    destruct (steady_send E i a _ w0 _ 1 7 HE Hs Hi S0 P0) as (v1 & e1 & w1 & f & H1 & S1 & P1 & D1 & C1); [apply op_wfb_ok; reflexivity|].
    destruct (steady_quiet E i a _ w1 _ (OIrq 4) HE Hs Hi S1) as (v2 & e2 & w2 & H2 & S2 & P2 & D2 & C2); [apply op_wfb_ok; reflexivity|reflexivity|]. rewrite P1 in P2.
    destruct (steady_quiet E i a _ w2 _ (OTimer TIMER_RX1) HE Hs Hi S2) as (v3 & e3 & w3 & H3 & S3 & P3 & D3 & C3); [exact I|exact I|]. rewrite P2 in P3.
    destruct (steady_quiet E i a _ w3 _ (OIrq 1) HE Hs Hi S3) as (v4 & e4 & w4 & H4 & S4 & P4 & D4 & C4); [apply op_wfb_ok; reflexivity|reflexivity|].
    destruct (steady_quiet E i a _ w4 _ (OTimer TIMER_RX2) HE Hs Hi S4) as (v5 & e5 & w5 & H5 & S5 & P5 & D5 & C5); [exact I|exact I|].
    destruct (steady_quiet E i a _ w5 _ (OIrq 1) HE Hs Hi S5) as (v6 & e6 & w6 & H6 & S6 & P6 & D6 & C6); [apply op_wfb_ok; reflexivity|reflexivity|].
    set (t1 := [(OSend 1 [7] false, v1, e1); (OIrq 4, v2, e2); (OTimer TIMER_RX1, v3, e3); (OIrq 1, v4, e4); (OTimer TIMER_RX2, v5, e5); (OIrq 1, v6, e6)]).
    exists (t0 ++ t1), w6.
    assert (X : exec E w0 alone t1 w6) by (unfold alone, t1; repeat (econstructor; [eassumption|]); constructor).
    split. { unfold times in *. replace (repeat alone (S N)) with (repeat alone N ++ [alone]) by (symmetry; apply repeat_cons). rewrite concat_app. cbn [concat]. rewrite app_nil_r. eapply exec_app; eassumption. }
    split. { replace (n + Z.of_nat (S N)) with (n + Z.of_nat N + 1) by lia. unfold t1. rewrite <- !app_assoc in S6. exact S6. }
    split.
    { cbn in D3, D5. rewrite app_nil_r in D3, D5. cbn in P2. cbn [phase_step] in P3, P5. rewrite D3 in P3. rewrite D5 in P5. rewrite P3 in P4. cbn in P4. rewrite P5, P4 in P6. exact P6. }
    split.
    { unfold data_frames in *. rewrite flat_map_app, app_length. unfold t1. cbn [flat_map fst snd] in *. rewrite L0. rewrite app_nil_r in *. rewrite D1, D2, D3, D4, D5, D6. cbn. lia. }
    apply Forall_app. split; [exact F0|]. unfold t1. repeat (apply Forall_cons; [|]); try apply Forall_nil; cbn [new_session_entry fst snd]; apply not_accepted; assumption.
Qed.

(** ** C38 *)
(** [steady] at the end of a computed run *)
Lemma steady_start E ops i a n : env_ok E -> forallb op_wfb ops = true -> match tally E world0 ops 0 with Some k => k =? n | None => false end = true ->
  match run E world0 ops with
  | Some (tr, w) => chan_on w i && (ses_dr (ses w) =? 0) && Bool.eqb (adr_on w) (fst a) && (adr_limit w =? snd a) && negb (time_pending tr) && match st_phase w with P_idle => true | _ => false end
  | None => false
  end = true ->
  exists tr w, steady E i a tr w n /\ st_phase w = P_idle.
Proof.
  intros HE Ho Ht Hr. destruct (tally E world0 ops 0) as [k|] eqn:Hk; [|discriminate]. apply Z.eqb_eq in Ht. subst k.
  destruct (tally_counted E ops [] world0 0 n (counted_0 E) Ho Hk) as (tr & w & R & C). rewrite R in Hr. cbn [app] in C.
  ands Hr. exists tr, w. split; [|destruct (st_phase w); discriminate || reflexivity]. constructor.
  - exists ops. split; [apply Forall_forall; intros o Hin; apply op_wfb_ok; rewrite forallb_forall in Ho; auto|apply run_exec; exact R].
  - exact C.
  - assumption.
  - lia.
  - destruct a. unfold adr_par. f_equal; [apply Bool.eqb_prop; assumption|cbn [snd] in *; lia].
  - destruct (time_pending tr); [discriminate|reflexivity].
Qed.

(** Refuted without the bound: after 2^32 unanswered uplinks at DR0 the count is back at
    0, and when uwan_set_dr(DR5) follows the next uplink does not ask for a downlink. *)
Theorem C38_refuted : ~ (forall E tr w n o v es w' f,
  env_ok E -> counted E tr w n -> op_wf o -> step E w o = Some (v, es, w') -> In f (data_frames [(o, v, es)]) ->
  (fr_adr_req f = true <-> fr_adr f = true /\ 0 < ses_dr (ses w) /\ adr_limit w <= n)).
Proof.
  intro C. set (E := demo [] []). assert (HE : env_ok E) by apply demo_ok.
  destruct (steady_start E (abp 0 7 ++ [OSetDr 0; OAdrEnable true]) 0 (true, 64) 0 HE) as (tr0 & w0 & S0 & P0); [reflexivity|vm_compute; reflexivity|vm_compute; reflexivity|].
  assert (HN : exists N, Z.of_nat N = 4294967296) by (exists (Z.to_nat 4294967296); apply Z2Nat.id; lia). destruct HN as [N HN].
  destruct (long_run E 0 (true, 64) tr0 w0 0 HE eq_refl ltac:(lia) S0 P0 N) as (tr1 & w1 & X1 & S1 & P1 & _). rewrite HN in S1.
  pose proof (steady_reach _ _ _ _ _ _ S1) as Hr1. pose proof (reach_Inv E w1 HE Hr1) as HI1. destruct S1 as [(ops & Ho & Hx) Hc Hch Hdr Ha Ht].
  destruct (C36_returns_partial E ops _ w1 (OSetDr 5) HE Ho Hx) as (v2 & e2 & w2 & H2); [apply op_wfb_ok; reflexivity|reflexivity|discriminate|auto|].
  assert (W2 : op_wf (OSetDr 5)) by (apply op_wfb_ok; reflexivity). pose proof (step_reach E w1 _ v2 e2 w2 Hr1 W2 H2) as Hr2.
  pose proof (counted_S E _ w1 _ _ _ _ _ Hc W2 H2) as K. cbn [restarts] in K.
  assert (Q : e2 = [] /\ ses_dr (ses w2) = 5 /\ s_adr (w_st w2) = s_adr (w_st w1) /\ s_ch (w_st w2) = s_ch (w_st w1) /\ uw_state (stk w2) = uw_state (stk w1)).
  { apply step_inv in H2; try assumption. inversion H2 as [o0 v0 s0 X Q1 Q2 Q3 Q4| | | | | | | | | |]. cbn [simple] in X. injection X as X1' X2'. unfold ses, stk. rewrite <- X2'. repeat split; reflexivity. }
  destruct Q as (-> & Q1 & Q2 & Q3 & Q4). change (is_data_uplink (OSetDr 5, v2, [])) with false in K. cbv iota in K.
  assert (W3 : op_wf (OSend 1 [7] false)) by (apply op_wfb_ok; reflexivity).
  assert (Hid : idle w2) by (unfold idle; rewrite Q4; unfold st_phase, ph in P1; destruct (uw_state (stk w1)); discriminate || reflexivity).
  destruct (send_accepted E 0 w2 1 7 HE Hr2) as (es & w3 & f & H3 & Hf); [lia|unfold chan_on; rewrite Q3; exact Hch|exact Hid|exact W3|].
  assert (Hin : In f (data_frames [(OSend 1 [7] false, VErr ERR_NO, es)])) by (cbn; rewrite Hf; left; reflexivity).
  assert (Hb : fr_adr f = true /\ adr_limit w2 = 64).
  { injection Ha as Ha1 Ha2. split; [|unfold adr_limit; rewrite Q2; exact Ha2].
    pose proof (step_bits E w2 _ _ _ _ f HE (reach_Inv E w2 HE Hr2) W3 H3 ltac:(cbn; rewrite Hf; reflexivity)) as (B & _). rewrite B. unfold adr_on. rewrite Q2. exact Ha1. }
  destruct Hb as [Hb1 Hb2].
  assert (T : fr_adr_req f = true) by (apply (C E _ w2 _ _ _ _ _ f HE K W3 H3 Hin); rewrite Hb2, Q1; split; [exact Hb1|split; lia]).
  apply (C38_ack_req_exact E _ w2 _ _ _ _ _ f HE K W3 H3 Hin) in T. destruct T as (_ & _ & T). rewrite Hb2 in T. cbn in T. lia.
Qed.
Print Assumptions C38_refuted.
