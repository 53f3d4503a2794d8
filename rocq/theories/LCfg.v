(** LCfg.v -- how settings change. *)
From Verif Require Export SpecCfg LWin2.


Ltac cfg_simple H :=
  repeat match type of H with context [if ?b then _ else _] => destruct b eqn:? end;
  injection H as <- <-; cbn.

Lemma step_config E w o v es w' : env_ok E -> Inv (w_st w) -> op_wf o -> step E w o = Some (v, es, w') ->
  (forall m, o <> OIrq m) -> config_of w' = config_call o (config_of w).
Proof.
  intros HE HI Hw H N. pose proof (step_tx E w o v es w' HE HI Hw H) as T.
  assert (Su : is_uplink_call o = true \/ o = OJoin -> config_of w' = config_of w).
  { intro U. destruct T as [p d c h1 s1 S|A B C D F G|A B].
    - destruct S as [_ _ _ (cc & ->) _ _ _ _ Hst _ _ _ _]. unfold config_of, stk. rewrite Hst. reflexivity.
    - unfold config_of, stk. rewrite F. reflexivity.
    - destruct (B U) as (_ & _ & cc & Q). unfold config_of, stk. rewrite Q. reflexivity. }
  assert (Hid : forall c, (match c with Mk_config _ _ _ _ _ _ _ _ _ _ => c end) = c) by (intros []; reflexivity).
  apply step_inv in H; try assumption. unfold config_of, stk in Su |- *. remember (w_st w') as s' eqn:Es'. clear Es' T Hid. destruct H.
  - destruct o; cbn [simple op_wf] in H, Hw; try discriminate H; try (injection H as <- <-; reflexivity).
    + unfold is_u8, is_u32 in Hw. unfold is_valid_frequency, FREQ_MIN, FREQ_MAX in H.
      unfold config_call. cfg_simple H; repeat match goal with |- context [if ?b then _ else _] => destruct b eqn:? end; try reflexivity; exfalso; lia.
    + injection H as <- <-. unfold config_call. cbn. destruct (dr <? 6) eqn:A, (dr <=? 5) eqn:B; try reflexivity; lia.
    + unfold config_call. cfg_simple H; reflexivity.
    + unfold config_call. cfg_simple H; repeat match goal with |- context [if ?b then _ else _] => destruct b eqn:? end; try reflexivity; exfalso; lia.
    + unfold config_call. cfg_simple H; repeat match goal with |- context [if ?b then _ else _] => destruct b eqn:? end; try reflexivity; exfalso; lia.
    + rewrite (Z.mul_comm delay) in H. unfold config_call. cfg_simple H; try reflexivity; exfalso; lia.
  - unfold config_call, init_state, init_stk. cbn. destruct r; reflexivity.
  - apply Su. auto.
  - apply Su. auto.
  - reflexivity.
  - exfalso. exact (N m eq_refl).
  - rewrite H. reflexivity.
  - reflexivity.
  - apply Su. auto.
  - reflexivity.
  - apply Su. auto.
Qed.

Lemma reads_link es : reads (link es) = reads es.
Proof. induction es as [|e es IH]; [reflexivity|]. unfold link, reads in *. cbn [filter flat_map]. destruct e; cbn [is_link flat_map app]; rewrite ?IH; reflexivity. Qed.
Lemma irq_reads E w m v es w' : env_ok E -> Inv (w_st w) -> op_wf (OIrq m) -> step E w (OIrq m) = Some (v, es, w') ->
  receives w m -> reads es = [rx_data (received E w)].
Proof.
  intros HE HI Hw H R. rewrite <- reads_link. pose proof R as (R1 & R2 & R3 & R4).
  assert (P : st_phase w = P_rx1 \/ st_phase w = P_rx2) by (unfold st_phase, ph; destruct R1 as [-> | ->]; auto).
  destruct (step_win E w _ v es w' HE HI Hw H) as [r A B C|fr pw f0 [A|A] B C D F G _ _ _|m0 ts A B C D F G K _|m0 A B C D F G K _|m0 pre rd e t vw A B C D N1 N2 F G J _|t A B C D F|A B N1 N2 N3 N4]; try discriminate A.
  - destruct P; congruence.
  - congruence.
  - assert (m0 = m) by congruence. subst m0. destruct J as [(-> & _)|(_ & J & _)]; [|contradiction].
    rewrite F, link_app, G. unfold rx_pre. destruct (uw_state (stk w)); reflexivity.
  - destruct (N2 m eq_refl) as (_ & [Q|[Q|[(Q & _)|(_ & Q & Q2)]]]); try congruence; destruct P; congruence.
Qed.
Lemma exec_keeps_delay x h c d : (match c with RXTimingSetupReq _ => true | _ => false end) = false ->
  v_rx1_delay (fst (fst (mac_exec x h c d))) = v_rx1_delay d.
Proof.
  intro N. assert (A : forall a e, v_rx1_delay (fst (answer a e)) = v_rx1_delay e) by (intros; unfold answer; destruct (_ <=? _); reflexivity).
  destruct c; try discriminate N; cbn [mac_exec fst]; try reflexivity; rewrite ?A; try reflexivity;
    repeat match goal with |- context [match ?b with _ => _ end] => destruct b; cbn [fst]; rewrite ?A end; reflexivity.
Qed.
Lemma run_keeps_delay x cs : forall h d, existsb (fun c => match c with RXTimingSetupReq _ => true | _ => false end) cs = false ->
  v_rx1_delay (fst (mac_run x h cs d)) = v_rx1_delay d.
Proof.
  induction cs as [|c cs IH]; intros h d N; [reflexivity|]. cbn [existsb] in N. apply orb_false_iff in N. destruct N as (N1 & N2).
  cbn [mac_run]. pose proof (exec_keeps_delay x h c d N1) as K. destruct (mac_exec x h c d) as [[d1 go] e1]. cbn [fst] in K. destruct go; [|exact K].
  specialize (IH (h ++ e1) d1 N2). destruct (mac_run x (h ++ e1) cs d1) as [d2 e2]. cbn [fst] in *. congruence.
Qed.
Lemma norx_config E w es w' : norx E w es w' -> config_of w' = config_of w.
Proof.
  intros [_ _ _ _ _ _ _ _ Q]. unfold config_of. set (a := stk w') in *. set (b := stk w) in *. clearbody a b.
  assert (G : forall f : stackst -> Z, (forall k p, f (set_pkt_params p k) = f k) -> (forall k p, f (set_uw_state p k) = f k) ->
    (forall k p, f (set_uw_is_join_state p k) = f k) -> f a = f b).
  { intros f F1 F2 F3. apply (f_equal f) in Q. rewrite F1, !F2, !F3 in Q. exact Q. }
  f_equal; apply G; reflexivity.
Qed.
Lemma transient_config w w' : but_transient (stk w') = but_transient (stk w) -> config_of w' = config_of w.
Proof.
  intro Q. unfold config_of. set (a := stk w') in *. set (b := stk w) in *. clearbody a b.
  assert (G : forall f : stackst -> Z, (forall k, f (but_transient k) = f k) -> f a = f b).
  { intros f F1. apply (f_equal f) in Q. rewrite !F1 in Q. exact Q. }
  f_equal; apply G; reflexivity.
Qed.
(** the RX1 delay is changed by [delay_entry]s only *)
Lemma step_delay E w o v es w' : env_ok E -> Inv (w_st w) -> op_wf o -> step E w o = Some (v, es, w') ->
  delay_entry (o, v, es) = false -> default_rx1_delay (stk w') = default_rx1_delay (stk w).
Proof.
  intros HE HI Hw H D. change (c_delay (config_of w') = c_delay (config_of w)).
  destruct (match o with OIrq _ => true | _ => false end) eqn:Io.
  - destruct o as [| | | | | | | | | | | | | | | | | | | | | | |m| | | | |]; try discriminate Io.
    destruct (recv_dec w m) as [R|R]; [|rewrite (norx_config _ _ _ _ (norx_step E w m v es w' HE HI H R)); reflexivity].
    change (existsb (fun p => (at_ p 0 =? 32) || asks_delay p) (reads es) = false) in D. rewrite (irq_reads E w m v es w' HE HI Hw H R) in D. cbn [existsb] in D. rewrite orb_false_r in D. apply orb_false_iff in D. destruct D as (D1 & D2).
    destruct (joining w) eqn:J.
    + destruct (join_outcome E w m v es w' HE HI H R J) as [r vw A B _ _ _ C G K|rg vw A B C G Dd F].
      * destruct K as (_ & _ & _ & _ & _ & K). rewrite (transient_config _ _ K). reflexivity.
      * exfalso. destruct A as (_ & A & _). rewrite A in D1. discriminate D1.
    + destruct (data_outcome E w m v es w' HE HI H R J) as [r t vw A1 A2 A3 A4 A5 K|r c t vw A1 A2 A3 A4 A5 A6 A7 A8 A9 A10 A11 A12].
      * destruct K as (_ & _ & _ & _ & _ & K). rewrite (transient_config _ _ K). reflexivity.
      * change (v_rx1_delay (dev_w w') = v_rx1_delay (dev_w w)). apply (f_equal fst) in A12. cbn [fst] in A12. rewrite A12. apply run_keeps_delay. exact D2.
  - rewrite (step_config E w o v es w' HE HI Hw H) by (intros m ->; discriminate Io). destruct (config_of w) as [dr nb0 nb eirp pw0 pw off delay rx2f rx2dr].
    destruct o; try discriminate D; cbn [config_call c_delay]; repeat match goal with |- context [if ?b then _ else _] => destruct b end; reflexivity.
Qed.
Lemma exec_delay E w ops tr w' : env_ok E -> Inv (w_st w) -> Forall op_wf ops -> exec E w ops tr w' ->
  Forall (fun t => delay_entry t = false) tr -> default_rx1_delay (stk w') = default_rx1_delay (stk w).
Proof.
  intros HE HI Ho Hx. induction Hx as [w|w o ops v es w1 tr w2 H Hx IH]; intro N; [reflexivity|].
  inversion Ho as [|? ? W1 W2]; subst. inversion N as [|? ? M1 M2]; subst.
  rewrite (IH (step_Inv E w o v es w1 HE HI W1 H) W2 M2). exact (step_delay E w o v es w1 HE HI W1 H M1).
Qed.

Lemma answers_nonneg cs : 0 <= answers_len cs.
Proof. induction cs as [|c cs IH]; cbn [answers_len fold_right]; [lia|]. fold (answers_len cs). destruct c; cbn [answer_len]; lia. Qed.
Lemma exec_fits x h c d : len (v_queue d) + answer_len c <= 15 ->
  snd (fst (mac_exec x h c d)) = true /\ len (v_queue (fst (fst (mac_exec x h c d)))) = len (v_queue d) + answer_len c.
Proof.
  intro F. assert (A : forall a e, v_queue e = v_queue d -> len a = answer_len c -> snd (answer a e) = true /\ len (v_queue (fst (answer a e))) = len (v_queue d) + answer_len c).
  { intros a e Q L. unfold answer. rewrite Q, L. destruct (Z.leb_spec (len (v_queue d) + answer_len c) 15); [|lia]. cbn [fst snd v_queue].
    split; [reflexivity|]. unfold len in *. rewrite app_length. lia. }
  destruct c; cbn [mac_exec fst snd answer_len] in *; try (split; [reflexivity|lia]);
    repeat match goal with |- context [match ?b with _ => _ end] => destruct b; cbn [fst snd] end; apply A; reflexivity.
Qed.
Lemma run_sets_delay x del cs2 : forall cs1 h d, len (v_queue d) + answers_len cs1 <= 15 ->
  existsb (fun c => match c with RXTimingSetupReq _ => true | _ => false end) cs2 = false ->
  v_rx1_delay (fst (mac_run x h (cs1 ++ RXTimingSetupReq del :: cs2) d)) = 1000 * Z.max 1 del.
Proof.
  induction cs1 as [|c cs1 IH]; intros h d F N.
  - cbn [app mac_run mac_exec]. match goal with |- context [answer ?a ?e] => set (q := e); assert (A : v_rx1_delay (fst (answer a q)) = 1000 * Z.max 1 del)
      by (unfold answer; destruct (_ <=? _); reflexivity); destruct (answer a q) as [d1 go] end.
    cbn [fst] in A. destruct go; [|exact A]. pose proof (run_keeps_delay x cs2 (h ++ []) d1 N) as K. destruct (mac_run x (h ++ []) cs2 d1) as [d2 e2]. cbn [fst] in *. congruence.
  - cbn [answers_len fold_right] in F. fold (answers_len cs1) in F. pose proof (answers_nonneg cs1) as Nn. destruct (exec_fits x h c d) as (G1 & G2); [lia|].
    cbn [app mac_run]. destruct (mac_exec x h c d) as [[d1 go] e1]. cbn [fst snd] in G1, G2. subst go.
    assert (F2 : len (v_queue d1) + answers_len cs1 <= 15) by lia.
    specialize (IH (h ++ e1) d1 F2 N). destruct (mac_run x (h ++ e1) _ d1) as [d2 e2]. exact IH.
Qed.

(** ** ranges of the requests *)
Lemma tx_delays E ops tr w : env_ok E -> Forall op_wf ops -> exec E world0 ops tr w -> st_phase w = P_tx ->
  exists s, 1 <= s <= 15 /\ uw_rx1_delay (stk w) = 1000 * s /\ uw_rx2_delay (stk w) = 1000 * (s + 1).
Proof.
  intros HE. revert ops tr w.
  apply (exec_snoc_ind E (fun _ w => st_phase w = P_tx -> exists s, 1 <= s <= 15 /\ uw_rx1_delay (stk w) = 1000 * s /\ uw_rx2_delay (stk w) = 1000 * (s + 1)) HE).
  - discriminate.
  - intros ops tr w o v es w' Ho Hx HI Hr IH Hw H P.
    destruct (step_win E w o v es w' HE HI Hw H) as [r A B C|fr pw f A B C D F G K1 K2 _|m ts A B C D F G K _|m A B C D F G K _|m pre rd e t vw A B C D N1 N2 F G J _|t A B C D F|A B N1 N2 N3 N4]; try congruence.
    + destruct (tk_ddel _ (iv_stk _ HI)) as (d & Q1 & Q2). fold (stk w) in Q2. unfold up_delay in K1, K2.
      destruct o; try (exists d; split; [lia|split; lia]). exists 5. split; [lia|split; lia].
    + assert (Q : st_phase w' = st_phase w) by (unfold st_phase, ph, stk; rewrite C; reflexivity). rewrite Q in P. unfold stk in *. rewrite C. apply IH; assumption.
    + assert (Q : st_phase w' = st_phase w) by (unfold st_phase; rewrite (sp_state _ _ B); reflexivity). rewrite (sp_rx1 _ _ B), (sp_rx2 _ _ B). apply IH. congruence.
Qed.
