(** LWin2.v -- counting transmissions and callbacks; delays; obligations. *)
From Verif Require Export LWin.

Lemma callbacks_link es : callbacks (link es) = callbacks es.
Proof. induction es as [|e es IH]; [reflexivity|]. unfold link in *. destruct e; cbn; rewrite ?IH; reflexivity. Qed.
Lemma map_time_cb ts : callbacks (map MGetTime ts) = [].
Proof. induction ts as [|t ts IH]; [reflexivity|exact IH]. Qed.
Lemma callbacks_app a b : callbacks (a ++ b) = callbacks a ++ callbacks b.
Proof. induction a as [|e a IH]; [reflexivity|]. destruct e; cbn [app callbacks]; rewrite IH; reflexivity. Qed.

Definition open_tx (p : phase) : Z := match p with P_off | P_idle => 0 | _ => 1 end.
Lemma rd_none (E : env) w m (rd : list ev) (e : err) : (rd = [RRead (received E w)] /\ receives w m \/ rd = [] /\ ~ receives w m /\ e <> ERR_NO) ->
  tx_frames (rx_pre w ++ rd ++ [RSleep]) = [] /\ callbacks (rx_pre w ++ rd ++ [RSleep]) = [] /\ freqs (rx_pre w ++ rd ++ [RSleep]) = [] /\
  setups (rx_pre w ++ rd ++ [RSleep]) = [] /\ timers (rx_pre w ++ rd ++ [RSleep]) = [] /\ starts_rx (rx_pre w ++ rd ++ [RSleep]) = false.
Proof. unfold rx_pre. destruct (uw_state (stk w)); intros [(-> & _)|(-> & _)]; repeat split; reflexivity. Qed.

Lemma count_step E w o v es w' : win_case E w o v es w' -> (forall r, o <> OInit r) ->
  number (tx_frames es) - number (callbacks es) = open_tx (st_phase w') - open_tx (st_phase w).
Proof.
  intros [r A B C|fr pw f A B C D F G _ _ _|m ts A B C D F G K _|m A B C D F G K _|m pre rd e t vw A B C D N1 N2 F G J _|t A B C D F|A B N1 N2 N3 N4] Hn.
  - exfalso. exact (Hn r A).
  - rewrite <- tx_of_link, <- callbacks_link, F, C, D. reflexivity.
  - rewrite <- tx_of_link, <- callbacks_link, G, tx_frames_app, callbacks_app, map_time_tx, map_time_cb, C, F. reflexivity.
  - rewrite G, C, F. reflexivity.
  - destruct (rd_none E w m rd e J) as (Q1 & Q2 & _). rewrite F, tx_frames_app, callbacks_app. rewrite <- (tx_of_link pre), <- (callbacks_link pre), G, Q1, Q2, D.
    destruct C as [-> | ->]; reflexivity.
  - rewrite F. unfold st_phase, ph, stk. rewrite C. cbn. lia.
  - rewrite <- tx_of_link, <- callbacks_link, A. unfold st_phase. rewrite (sp_state _ _ B). cbn. lia.
Qed.
Lemma number_app {A} (a b : list A) : number (a ++ b) = number a + number b.
Proof. unfold number. rewrite app_length. lia. Qed.
Lemma count_exec E w ops tr w' : env_ok E -> Inv (w_st w) -> Forall op_wf ops -> exec E w ops tr w' -> Forall (fun o => forall r, o <> OInit r) ops ->
  number (tx_frames (all_evs tr)) - number (callbacks (all_evs tr)) = open_tx (st_phase w') - open_tx (st_phase w).
Proof.
  intros HE HI Hw Hx. induction Hx as [w|w o ops v es w1 tr w2 H Hx IH]; intro Hn; [cbn; lia|].
  inversion Hw as [|? ? W1 W2]; subst. inversion Hn as [|? ? M1 M2]; subst.
  pose proof (count_step E w o v es w1 (step_win E w o v es w1 HE HI W1 H) M1) as Q.
  specialize (IH (step_Inv E w o v es w1 HE HI W1 H) W2 M2).
  unfold all_evs in *. cbn [flat_map]. change (evs_of (o, v, es)) with es. rewrite tx_frames_app, callbacks_app, !number_app. lia.
Qed.
Lemma phase_init E w ops tr w' : env_ok E -> Inv (w_st w) -> Forall op_wf ops -> exec E w ops tr w' -> st_phase w <> P_off -> st_phase w' <> P_off.
Proof.
  intros HE HI Hw Hx Hp. rewrite (phase_exec E w ops tr w' HE HI Hw Hx). clear - Hp. revert Hp. generalize (st_phase w).
  induction tr as [|[[o v] es] tr IH]; intros p Hp; [exact Hp|]. cbn [fold_left]. apply IH.
  destruct o, p; cbv beta iota zeta delta [phase_step]; try congruence; try (destruct (tx_frames es); discriminate); repeat (match goal with |- context [Z.testbit ?a ?b] => destruct (Z.testbit a b) end); discriminate.
Qed.

(** ** From the transmission to its end *)
(** transmitting *)
Definition sends (o : op) (v : val) (es : list ev) (f : list Z) : Prop :=
  (o = OJoin \/ is_uplink_call o = true) /\ tx_frames es = [f].
Lemma tx_step E w o v es w' f : env_ok E -> Inv (w_st w) -> op_wf o -> step E w o = Some (v, es, w') -> tx_frames es = [f] ->
  (o = OJoin \/ is_uplink_call o = true) /\
  exists freq power, link es = [RSetFreq freq; RSetup (lora (tx_dr_of o w) false); RSetPower power; RTx f] /\
    st_phase w' = P_tx /\ pkt_params (stk w') = lora (tx_dr_of o w) false /\
    uw_rx1_delay (stk w') = up_delay o w /\ uw_rx2_delay (stk w') = up_delay o w + 1000.
Proof.
  intros HE HI Hw H Ht. rewrite <- tx_of_link in Ht.
  destruct (step_win E w o v es w' HE HI Hw H) as [r A B C|fr pw f0 A B C D F G K1 K2 _|m ts A B C D F G K _|m A B C D F G K _|m pre rd e t vw A B C D N1 N2 F G J _|t A B C D F|A B N1 N2 N3 N4].
  - rewrite B in Ht. discriminate Ht.
  - rewrite F in Ht. cbn in Ht. injection Ht as ->. split; [exact A|]. exists fr, pw. auto 10.
  - rewrite G, tx_frames_app, map_time_tx in Ht. discriminate Ht.
  - rewrite G in Ht. discriminate Ht.
  - rewrite F, link_app, tx_frames_app, G in Ht. destruct (rd_none E w m rd e J) as (Q1 & _). rewrite Q1 in Ht. discriminate Ht.
  - rewrite F in Ht. discriminate Ht.
  - rewrite A in Ht. discriminate Ht.
Qed.
(** while the transmission goes on nothing is retuned and the delays stay *)
Record tx_kept (w w' : world) (es : list ev) : Prop := Mk_tx_kept {
  tk_par : pkt_params (stk w') = pkt_params (stk w);
  tk_d1 : uw_rx1_delay (stk w') = uw_rx1_delay (stk w);
  tk_d2 : uw_rx2_delay (stk w') = uw_rx2_delay (stk w);
  tk_link : link es = []
}.
Lemma tx_wait E w ops tr w' : env_ok E -> Inv (w_st w) -> Forall op_wf ops -> exec E w ops tr w' ->
  tx_frames (all_evs tr) = [] -> Forall (fun o => forall r, o <> OInit r) ops -> st_phase w' = P_tx ->
  st_phase w = P_tx /\ tx_kept w w' (all_evs tr).
Proof.
  intros HE HI Hw Hx. induction Hx as [w|w o ops v es w1 tr w2 H Hx IH]; intros Ht Hn Hp.
  { split; [exact Hp|]. constructor; reflexivity. }
  inversion Hw as [|? ? W1 W2]; subst. inversion Hn as [|? ? M1 M2]; subst.
  unfold all_evs in Ht. cbn [flat_map] in Ht. change (evs_of (o, v, es)) with es in Ht. rewrite tx_frames_app in Ht. apply app_eq_nil in Ht. destruct Ht as (T1 & T2).
  destruct (IH (step_Inv E w o v es w1 HE HI W1 H) W2 T2 M2 Hp) as (P1 & [K1 K2 K3 K4]). clear IH.
  rewrite <- tx_of_link in T1.
  destruct (step_win E w o v es w1 HE HI W1 H) as [r A B C|fr pw f0 A B C D F G _ _ _|m ts A B C D F G K _|m A B C D F G K _|m pre rd e t vw A B C D N1 N2 F G J _|t A B C D F|A B N1 N2 N3 N4].
  - exfalso. exact (M1 r A).
  - rewrite F in T1. discriminate T1.
  - congruence.
  - congruence.
  - congruence.
  - exfalso. assert (Q : st_phase w1 = st_phase w) by (unfold st_phase, ph, stk; rewrite C; reflexivity). destruct D as [(D & _)|(D & _)]; congruence.
  - assert (Q : st_phase w1 = st_phase w) by (unfold st_phase; rewrite (sp_state _ _ B); reflexivity). destruct B. split; [congruence|].
    constructor; [congruence..|]. unfold all_evs in *. cbn [flat_map]. change (evs_of (o, v, es)) with es. rewrite link_app, A. exact K4.
Qed.
Lemma txdone_step E w m v es w' : env_ok E -> Inv (w_st w) -> op_wf (OIrq m) -> step E w (OIrq m) = Some (v, es, w') ->
  st_phase w = P_tx -> Z.testbit m 2 = true -> exists ts,
  link es = [TStart TIMER_RX1 (uw_rx1_delay (stk w)); TStart TIMER_RX2 (uw_rx2_delay (stk w)); RSetup (rx1_params (w_st w))] ++ map MGetTime ts.
Proof.
  intros HE HI Hw H Hp Hm.
  destruct (step_win E w _ v es w' HE HI Hw H) as [r A B C|fr pw f0 [A|A] B C D F G _ _ _|m0 ts A B C D F G K _|m0 A B C D F G K _|m0 pre rd e t vw A B [C|C] D N1 N2 F G J _|t A B C D F|A B N1 N2 N3 N4]; try congruence; try discriminate A.
  - eauto.
  - destruct (N2 m eq_refl) as (_ & [Q|[Q|[(_ & Q)|([Q|Q] & _)]]]); congruence.
Qed.
