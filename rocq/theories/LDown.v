(** LDown.v -- reception of a frame as a step of the transition system
    (infrastructure for C10 - C24). *)
From Verif Require Export LMac SpecDown.

Lemma idle_Inv' w : Inv (w_st w) -> uw_state (stk w) = RX1 \/ uw_state (stk w) = RX2 -> Inv (idle_state (w_st w)).
Proof. intros HI H. apply idle_Inv; [exact HI|]. unfold stk in H. destruct H; congruence. Qed.
Lemma idle_region' w : Inv (w_st w) -> uw_state (stk w) = RX1 \/ uw_state (stk w) = RX2 ->
  uw_region (s_stk (idle_state (w_st w))) <> None.
Proof. intros HI H. apply idle_region; [exact HI|]. unfold stk in H. destruct H; congruence. Qed.

Definition rx_pre (w : world) : list ev := match uw_state (stk w) with RX1 => [TStop TIMER_RX2] | _ => [] end.

(** a reception, whatever the frame *)
Lemma rx_step E w m v es w' : env_ok E -> Inv (w_st w) -> step E w (OIrq m) = Some (v, es, w') -> receives w m ->
  exists es1, es = rx_pre w ++ es1 /\
    dl_cases (relax E) (rx_hist w) (idle_state (w_st w)) (Ok (tt, w_st w', es1)).
Proof.
  intros HE HI H (Hs & F0 & F1 & F3). destruct (step_irq E w m v es w' HE HI H) as (_ & Hc).
  unfold rx_hist, rx_pre, stk in *. unfold flag in *.
  inv_ok Hc; unfold flag in *; try congruence.
  - exfalso. destruct H0 as [A|[A|[[A _]|(_ & _ & A)]]]; destruct Hs; congruence.
  - destruct Hs; congruence.
  - rewrite H0. eexists. split; [reflexivity|]. assumption.
  - rewrite H0. rewrite app_nil_r. eexists. split; [reflexivity|]. assumption.
Qed.

(** the start state of the frame handlers *)
Definition rx_s1 (E : env) (w : world) : st := rx_state (rx_data (received E w)) (idle_state (w_st w)).
Lemma rx_s1_Inv E w : env_ok E -> Inv (w_st w) -> uw_state (stk w) = RX1 \/ uw_state (stk w) = RX2 ->
  Inv (rx_s1 E w) /\ uw_region (s_stk (rx_s1 E w)) <> None.
Proof.
  intros HE HI Hs. split; [|exact (idle_region' w HI Hs)].
  apply rx_state_Inv; [apply idle_Inv'; assumption|apply (ok_pkt_byte E HE)|apply (ok_pkt_len E HE)].
Qed.

Lemma rx_data_step E w m v es w' : env_ok E -> Inv (w_st w) -> step E w (OIrq m) = Some (v, es, w') ->
  receives w m -> joining w = false ->
  let rx := received E w in
  exists r p s2 es1, w_st w' = end_dl s2 /\
    es = rx_pre w ++ RRead rx :: RSleep :: es1 ++ [CbDown r (get (frame (rx_s1 E w)) 0 / 32) (p_view p s2)] /\
    data_cases (relax E) (rx_data rx) (rx_rssi rx) (rx_snr rx) (cmd_hist E w) (rx_s1 E w) (Ok ((r, p), s2, es1)).
Proof.
  intros HE HI H Hr Hj rx. destruct (rx_step E w m v es w' HE HI H Hr) as (es1 & -> & Hd).
  unfold joining, stk in Hj. inv_ok Hd.
  - change (uw_is_join_state (s_stk (w_st w)) = true) in H0. congruence.
  - do 4 eexists. split; [symmetry; eassumption|]. split; [reflexivity|]. eassumption.
Qed.
Lemma rx_join_step E w m v es w' : env_ok E -> Inv (w_st w) -> step E w (OIrq m) = Some (v, es, w') ->
  receives w m -> joining w = true ->
  let rx := received E w in
  exists r t view s2 es1, w_st w' = end_dl s2 /\
    es = rx_pre w ++ RRead rx :: RSleep :: es1 ++ [CbDown r t view] /\
    ja_cases (relax E) (rx_data rx) (rx_s1 E w) (Ok (r, s2, es1)).
Proof.
  intros HE HI H Hr Hj rx. destruct (rx_step E w m v es w' HE HI H Hr) as (es1 & -> & Hd).
  unfold joining, stk in Hj. inv_ok Hd.
  - do 5 eexists. split; [symmetry; eassumption|]. split; [reflexivity|]. eassumption.
  - change (uw_is_join_state (s_stk (w_st w)) = false) in H0. congruence.
Qed.

(** fields of a frame in the words of the specification *)
Lemma at_get d (i : nat) : at_ d i = get d (Z.of_nat i).
Proof. unfold at_, get. rewrite Nat2Z.id. reflexivity. Qed.
Lemma fr_fopts_len_d d : bytes_ok d -> Z.of_nat (fr_fopts_len d) = d_fopts_len d.
Proof.
  intro H. unfold fr_fopts_len, d_fopts_len. rewrite at_get. change (Z.of_nat 5) with 5.
  pose proof (Z.mod_pos_bound (get d 5) 16 ltac:(lia)). lia.
Qed.
Lemma fr_fopts_d d : fr_fopts d = d_fopts d.
Proof. reflexivity. Qed.
Lemma slice_get d : forall (off n : nat), (off + n <= length d)%nat ->
  slice d off n = map (fun i => get d (Z.of_nat i)) (seq off n).
Proof.
  intros off n. revert off. induction n; intros off H; [reflexivity|].
  cbn [seq map]. unfold slice. rewrite <- (IHn (S off)) by lia. unfold slice.
  assert (Hs : skipn off d = get d (Z.of_nat off) :: skipn (S off) d).
  { unfold get. rewrite Nat2Z.id. clear IHn. revert off H. induction d; intros off H; [cbn in H; lia|].
    destruct off; [reflexivity|]. cbn [skipn nth]. cbn in H. rewrite (IHd off) by lia. reflexivity. }
  rewrite Hs. reflexivity.
Qed.
Lemma fr_addr_d d : 12 <= len d -> fr_addr d = g32 d 1.
Proof.
  intro H. unfold fr_addr. rewrite slice_get by (unfold len in H; lia). cbn [seq map unle]. unfold g32, g24.
  change (Z.of_nat 1) with 1. change (Z.of_nat 2) with (1 + 1). change (Z.of_nat 3) with (1 + 2). change (Z.of_nat 4) with (1 + 3). lia.
Qed.
Lemma fr_cnt16_d d : 12 <= len d -> fr_cnt16 d = g16 d 6.
Proof.
  intro H. unfold fr_cnt16. rewrite slice_get by (unfold len in H; lia). cbn [seq map unle]. unfold g16.
  change (Z.of_nat 6) with 6. change (Z.of_nat 7) with (6 + 1). lia.
Qed.
Lemma fr_down_d d : 12 <= len d -> (fr_down d <-> d_hdr_ok d).
Proof.
  intro H. unfold fr_down, d_hdr_ok, d_mtype. rewrite at_get. change (Z.of_nat 0) with 0. tauto.
Qed.
Lemma fr_sized_d d : bytes_ok d -> (fr_sized d <-> 12 + d_fopts_len d <= len d).
Proof. intro H. unfold fr_sized, len. rewrite <- fr_fopts_len_d by exact H. lia. Qed.

(** where a callback can come from *)
Lemma callbacks_app a b : callbacks (a ++ b) = callbacks a ++ callbacks b.
Proof. induction a as [|e a IH]; [reflexivity|]. destruct e; cbn; rewrite ?IH; reflexivity. Qed.
Lemma quiet_callbacks es : Forall (fun e => is_quiet e = true) es -> callbacks es = [].
Proof. intro H. exact (proj1 (proj2 (quiet_obs es H))). Qed.
