(** Prop_Rx2.v -- what the first receive window decides about the second (C95). *)
From Verif Require Import LWin LJoin2 Prop_Down Prop_Join Prop_Win Prop_Init.

Definition no_init (o : op) : Prop := forall r, o <> OInit r.
(** the receiver is started by the RX2 timer and by nothing else *)
Definition rx2_only (t : entry) : Prop :=
  match t with (OTimer TIMER_RX2, _, es) => es = [RRx 255 8 0] | (_, _, es) => starts_rx es = false end.

Lemma starts_rx_app a b : starts_rx (a ++ b) = starts_rx a || starts_rx b.
Proof. unfold starts_rx. apply existsb_app. Qed.
Lemma starts_rx_link es : starts_rx (link es) = starts_rx es.
Proof. unfold starts_rx, link. induction es as [|e es IH]; [reflexivity|]. destruct e; cbn; rewrite ?IH; reflexivity. Qed.
Lemma tx_frames_link es : tx_frames (link es) = tx_frames es.
Proof. unfold link. induction es as [|e es IH]; [reflexivity|]. destruct e; cbn; rewrite ?IH; reflexivity. Qed.
Definition fr_downb (d : list Z) : bool := (at_ d 0 mod 4 =? 0) && ((at_ d 0 / 32 =? 3) || (at_ d 0 / 32 =? 5)).
Lemma fr_downb_ok d : fr_downb d = true -> fr_down d.
Proof. unfold fr_downb, fr_down. lia. Qed.
Lemma starts_times ts : starts_rx (map MGetTime ts) = false.
Proof. unfold starts_rx. induction ts as [|t ts IH]; [reflexivity|exact IH]. Qed.
Lemma idle_silent E w ops tr w' : env_ok E -> Inv (w_st w) -> st_phase w = P_idle -> Forall op_wf ops -> exec E w ops tr w' ->
  tx_frames (all_evs tr) = [] -> starts_rx (all_evs tr) = false /\ st_phase w' = P_idle.
Proof.
  intros HE HI P Hw X T. induction X as [w|w o ops v es w1 tr w2 H X IH]; [split; [reflexivity|exact P]|]. inversion Hw as [|? ? Ho Hw']; subst.
  unfold all_evs in T. cbn [flat_map] in T. change (evs_of (o, v, es)) with es in T. rewrite tx_frames_app in T. apply app_eq_nil in T as [T1 T2].
  assert (K : st_phase w1 = P_idle /\ starts_rx es = false).
  { rewrite <- starts_rx_link. destruct (step_win E w o v es w1 HE HI Ho H) as [r A B C|fr pw f A B C D F G _ _ _|m ts A B C D F G K _|m A B C D F G K _|m pre rd e t vw A B C D N1 N2 F G J _|t A B C D F|A B N1 N2 N3 N4]; try congruence.
    - rewrite B. auto.
    - exfalso. rewrite <- tx_frames_link, F in T1. discriminate T1.
    - exfalso. destruct C; congruence.
    - exfalso. destruct D as [[D _]|[D _]]; congruence.
    - rewrite A. split; [|reflexivity]. unfold st_phase in *. rewrite (sp_state _ _ B). exact P. }
  destruct K as [K1 K2]. destruct (IH (step_Inv _ _ _ _ _ _ HE HI Ho H) K1 Hw' T2) as [I1 I2]. split; [|exact I2].
  unfold all_evs in *. cbn [flat_map]. change (evs_of (o, v, es)) with es. rewrite starts_rx_app, K2. exact I1.
Qed.
Lemma rx2_waits E w ops tr w' : env_ok E -> Inv (w_st w) -> st_phase w = P_rx2 -> Forall op_wf ops -> Forall no_init ops -> exec E w ops tr w' ->
  callbacks (all_evs tr) = [] -> Forall rx2_only tr /\ st_phase w' = P_rx2.
Proof.
  intros HE HI P Hw Hn X T. induction X as [w|w o ops v es w1 tr w2 H X IH]; [split; [constructor|exact P]|]. inversion Hw as [|? ? Ho Hw']; subst. inversion Hn as [|? ? Hn1 Hn']; subst.
  unfold all_evs in T. cbn [flat_map] in T. change (evs_of (o, v, es)) with es in T. rewrite callbacks_app in T. apply app_eq_nil in T as [T1 T2].
  assert (K : st_phase w1 = P_rx2 /\ rx2_only (o, v, es)).
  { destruct (step_win E w o v es w1 HE HI Ho H) as [r A B C|fr pw f A B C D F G _ _ _|m ts A B C D F G K _|m A B C D F G K _|m pre rd e t vw A B C D N1 N2 F G J _|t A B C D F|A B N1 N2 N3 N4]; try congruence.
    - exfalso. rewrite F, callbacks_app in T1. apply app_eq_nil in T1 as [_ T1]. discriminate T1.
    - split; [unfold st_phase, ph, stk in *; rewrite C; exact P|]. subst o. destruct D as [[D _]|[_ ->]]; [congruence|]. exact F.
    - split; [unfold st_phase in *; rewrite (sp_state _ _ B); exact P|]. pose proof (starts_rx_link es) as L. rewrite A in L. destruct o as [| | | | | | | | | | | | | | | | | | | | | | | |t| | | |]; try (symmetry; exact L).
      destruct t; [symmetry; exact L|]. exfalso. destruct (N3 TIMER_RX2 eq_refl) as [_ N]. apply N. right. auto. }
  destruct K as [K1 K2]. destruct (IH (step_Inv _ _ _ _ _ _ HE HI Ho H) K1 Hw' Hn' T2) as [I1 I2]. split; [constructor; assumption|exact I2].
Qed.

(** ** C95: the second window is opened unless the first one brought a frame for this device *)
(** If the first window times out, the second is prepared, and until the transaction is
    over its timer opens it, each time it fires, and nothing else does. If the first window ends with a packet,
    the timer of the second is stopped, and until the next uplink the receiver stays off
    whatever fires. Any other radio event leaves the first window as it is. *)
Theorem C95_second_window_partial : forall E ops0 tr0 w m v es w1 ops tr w2,
  env_ok E -> Forall op_wf ops0 -> exec E world0 ops0 tr0 w -> phase_of tr0 = P_rx1 -> op_wf (OIrq m) -> step E w (OIrq m) = Some (v, es, w1) ->
  Forall op_wf ops -> Forall no_init ops -> exec E w1 ops tr w2 ->
  let timeout := Z.testbit m 0 in let packet := Z.testbit m 1 in starts_rx es = false /\
  (timeout = true -> callbacks (all_evs tr) = [] -> Forall rx2_only tr) /\
  (timeout = false -> packet = true -> (exists rest, link es = TStop TIMER_RX2 :: rest) /\ (tx_frames (all_evs tr) = [] -> starts_rx (all_evs tr) = false)) /\
  (timeout = false -> packet = false -> es = [] /\ phase_of (tr0 ++ [(OIrq m, v, es)]) = P_rx1).
Proof.
  intros E ops0 tr0 w m v es w1 ops tr w2 HE Ho Hx Hp Hw H Hws Hn X. pose proof (exec_Inv E world0 _ _ _ HE power_on_Inv Ho Hx) as HI.
  pose proof (phase_sound E ops0 tr0 w HE Ho Hx) as Ps. rewrite Hp in Ps. pose proof (step_Inv _ _ _ _ _ _ HE HI Hw H) as HI1. cbv zeta.
  split. { destruct (starts_rx es) eqn:Q; [|reflexivity]. apply (proj1 (C31_receiver E ops0 tr0 w (OIrq m) v es w1 HE Ho Hx Hw H)) in Q. destruct Q as [[_ Q]|[_ Q]]; discriminate Q. }
  split; [|split].
  - intros M0 Cb. eapply rx2_waits; [exact HE|exact HI1| |exact Hws|exact Hn|exact X|exact Cb].
    destruct (step_win E w _ v es w1 HE HI Hw H) as [r A B C|fr pw f0 [A|A] B C D F G _ _ _|m0 ts A B C D F G K _|m0 A B C D F G K _|m0 pre rd e t vw A B [C|C] D N1 N2 F G J _|t A B C D F|A B N1 N2 N3 N4]; try congruence; try discriminate A.
    + destruct (N1 Ps). congruence.
    + destruct (N2 m eq_refl) as (_ & [Q|[Q|[(Q & _)|(_ & Q & _)]]]); congruence.
  - intros M0 M1. split; [apply (C31_rx1_done E ops0 tr0 w m v es w1); assumption|]. intro T. eapply idle_silent; [exact HE|exact HI1| |exact Hws|exact X|exact T].
    destruct (step_win E w _ v es w1 HE HI Hw H) as [r A B C|fr pw f0 [A|A] B C D F G _ _ _|m0 ts A B C D F G K _|m0 A B C D F G K _|m0 pre rd e t vw A B [C|C] D N1 N2 F G J _|t A B C D F|A B N1 N2 N3 N4]; try congruence; try discriminate A.
    destruct (N2 m eq_refl) as (_ & [Q|[Q|[(Q & _)|(_ & _ & Q)]]]); congruence.
  - intros M0 M1. split; [|assert (Q : phase_of (tr0 ++ [(OIrq m, v, es)]) = phase_step (phase_of tr0) (OIrq m, v, es)) by (unfold phase_of; rewrite fold_left_app; reflexivity); rewrite Q, Hp; cbv beta iota zeta delta [phase_step]; rewrite M0, M1; reflexivity].
    destruct (step_win E w _ v es w1 HE HI Hw H) as [r A B C|fr pw f0 [A|A] B C D F G _ _ _|m0 ts A B C D F G K _|m0 A B C D F G K _|m0 pre rd e t vw A B [C|C] D N1 N2 F G J _|t A B C D F|A B N1 N2 N3 N4]; try congruence; try discriminate A.
    + destruct (N1 Ps). congruence.
    + destruct (N2 m eq_refl) as (Q & _). exact Q.
Qed.
Print Assumptions C95_second_window_partial.
Example C95_timeout_case : run_of (demo [] []) (abp 0 7 ++ after_uplink ++ [OTimer TIMER_RX1; OIrq 1]) [OSetDr 3; OTimer TIMER_RX1; OTimer TIMER_RX2; OIrq 4]
  (fun w tr w' => is_nil (callbacks (all_evs tr)) && match tr with [_; _; (_, _, [RRx 255 8 0]); _] => true | _ => false end).
Proof. show_run. Qed.
Example C95_packet_case : run_of (demo [] [(dl 8 false 0 [6] None, 9)]) (abp 0 7 ++ after_uplink ++ [OTimer TIMER_RX1; OIrq 2]) [OTimer TIMER_RX1; OTimer TIMER_RX2; OIrq 2]
  (fun w tr w' => (f_cnt_down (ses w) =? 8) && is_nil (all_evs tr)).
Proof. show_run. Qed.

(** The claim itself: a packet in the first window that is not for this device does not
    cost the second window (LoRaWAN 1.0.2, 3.3.3: the second window is left out if a frame
    was demodulated in the first one and was intended for this device after address and
    MIC checks).
    [foreign]: not for this device *)
Definition C95_claim (foreign : env -> world -> Z -> Prop) : Prop :=
  forall E ops0 tr0 w m v es w1 v' es' w2, env_ok E -> Forall op_wf ops0 -> exec E world0 ops0 tr0 w -> phase_of tr0 = P_rx1 -> op_wf (OIrq m) ->
    step E w (OIrq m) = Some (v, es, w1) -> foreign E w m -> step E w1 (OTimer TIMER_RX2) = Some (v', es', w2) -> starts_rx es' = true.
Lemma C95_refute (foreign : env -> world -> Z -> Prop) E ops0 m : env_ok E -> forallb op_wfb ops0 = true -> op_wfb (OIrq m) = true ->
  match run E world0 ops0 with
  | Some (tr0, w) => match phase_of tr0 with P_rx1 => true | _ => false end && match step E w (OIrq m) with Some (_, _, w1) =>
      match step E w1 (OTimer TIMER_RX2) with Some (_, es', _) => negb (starts_rx es') | None => false end | None => false end
  | None => false end = true ->
  (forall tr0 w, run E world0 ops0 = Some (tr0, w) -> foreign E w m) -> ~ C95_claim foreign.
Proof.
  intros HE W Wm B F C. destruct (run E world0 ops0) as [[tr0 w]|] eqn:R; [|discriminate]. apply andb_prop in B as [B1 B2].
  destruct (step E w (OIrq m)) as [[[v es] w1]|] eqn:S1; [|discriminate]. destruct (step E w1 (OTimer TIMER_RX2)) as [[[v' es'] w2]|] eqn:S2; [|discriminate].
  assert (P : phase_of tr0 = P_rx1) by (destruct (phase_of tr0); congruence).
  rewrite (C E ops0 tr0 w m v es w1 v' es' w2 HE) in B2; [discriminate B2| | | | | | |]; try assumption; [|apply run_exec; exact R|apply op_wfb_ok; exact Wm|apply F with tr0; reflexivity].
  apply Forall_forall. intros o Ho. apply op_wfb_ok. rewrite forallb_forall in W. exact (W o Ho).
Qed.
(** another device's frame *)
Definition to_another (E : env) (w : world) (m : Z) : Prop :=
  receives w m /\ joining w = false /\ fr_down (rx_data (received E w)) /\ fr_addr (rx_data (received E w)) <> dev_addr (ses w).
Theorem C95_foreign_refuted : ~ C95_claim to_another.
Proof.
  set (E := demo [] [(downlink_frame toy_aes toy_cmac k2 k1 12345 3 false 0 [] (Some (5, [1; 2])), 9)]).
  apply (C95_refute to_another E (abp 0 7 ++ after_uplink ++ [OTimer TIMER_RX1]) 2); [apply demo_ok|reflexivity|reflexivity|vm_compute; reflexivity|].
  intros tr0 w R. unfold to_another.
  assert (B : match run E world0 (abp 0 7 ++ after_uplink ++ [OTimer TIMER_RX1]) with Some (_, w) => recvb w 2 && negb (joining w) && fr_downb (rx_data (received E w)) && negb (fr_addr (rx_data (received E w)) =? dev_addr (ses w)) | None => false end = true) by (vm_compute; reflexivity).
  rewrite R in B. apply andb_prop in B as [B B4]. apply andb_prop in B as [B B3]. apply andb_prop in B as [B1 B2]. split; [exact (recvb_ok _ _ B1)|]. split; [apply negb_true_iff; exact B2|].
  split; [exact (fr_downb_ok _ B3)|]. intro Q. rewrite Q, Z.eqb_refl in B4. discriminate B4.
Qed.
Print Assumptions C95_foreign_refuted.
(** a packet garbled by noise *)
Theorem C95_crc_refuted : ~ C95_claim (fun E w m => Z.testbit m 0 = false /\ Z.testbit m 1 = true /\ Z.testbit m 3 = true).
Proof.
  apply (C95_refute _ (demo [] []) (abp 0 7 ++ after_uplink ++ [OTimer TIMER_RX1]) 10); [apply demo_ok|reflexivity|reflexivity|vm_compute; reflexivity|]. intros. repeat split.
Qed.
Print Assumptions C95_crc_refuted.
(** another device's join-accept while joining *)
Theorem C95_join_refuted : ~ C95_claim (fun E w m => receives w m /\ joining w = true /\ ~ ja_valid E (app_key w) (rx_data (received E w))).
Proof.
  set (E := demo [] [(join_accept_frame toy_cmac toy_dec k2 1193046 7 637603841 35 5 [], 9)]).
  apply (C95_refute _ E (join_ops EU868 ++ [OTimer TIMER_RX1]) 2); [apply demo_ok|reflexivity|reflexivity|vm_compute; reflexivity|].
  intros tr0 w R.
  assert (B : match run E world0 (join_ops EU868 ++ [OTimer TIMER_RX1]) with Some (_, w) => recvb w 2 && joining w && match step E w (OIrq 2) with Some (_, es, _) => negb (cb_ok es) | None => false end | None => false end = true) by (vm_compute; reflexivity).
  pose proof (run_exec _ _ _ _ _ R) as X. rewrite R in B. apply andb_prop in B as [B B3]. apply andb_prop in B as [B1 B2]. apply recvb_ok in B1. split; [exact B1|]. split; [exact B2|]. intro V.
  assert (Hr : reachable E w) by (exists (join_ops EU868 ++ [OTimer TIMER_RX1]), tr0; split; [apply Forall_forall; intros o Ho; apply op_wfb_ok; revert o Ho; apply forallb_forall; reflexivity|exact X]).
  destruct (step E w (OIrq 2)) as [[[v es] w']|] eqn:S; [|discriminate].
  destruct (join_ok_case E w 2 v es w' (demo_ok _ _) Hr ltac:(cbn; unfold is_u8; lia) B1 B2 S V) as (_ & _ & _ & _ & (view & Cb) & _).
  unfold cb_ok in B3. rewrite Cb in B3. discriminate B3.
Qed.
Print Assumptions C95_join_refuted.
