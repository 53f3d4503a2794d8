(** Prop_Init.v -- initialisation and MAC commands on port 0 (C55, C56, C57). *)
From Verif Require Import LCfg Prop_Mac Prop_Join Prop_Down Prop_Chan Prop_Win.

(** C55: everything but the join in progress starts afresh *)
Theorem C55_partial : forall E w r v es w',
  env_ok E -> reachable E w -> step E w (OInit r) = Some (v, es, w') ->
  idle w' /\ step E w' OIsJoined = Some (VBool false, [], w') /\ fopts w' = [] /\ f_cnt_up (ses w') = 0 /\ f_cnt_down (ses w') = 0 /\
  ack_required (ses w') = false /\
  (forall i, 0 <= i < 16 -> chan_on w' i = (i <? number (region_defaults r))) /\
  (forall i, 0 <= i < number (region_defaults r) -> chan_freq w' i = nth (Z.to_nat i) (region_defaults r) 0) /\
  tx_frames es = [] /\ callbacks es = [] /\ (joining w = false -> joining w' = false).
Proof.
  intros E w r v es w' HE Hr H. pose proof (reach_Inv E w HE Hr) as HI.
  assert (Hr' : reachable E w') by (eapply step_reach; [exact Hr| |exact H]; exact I). pose proof (reach_Inv E w' HE Hr') as HI'.
  destruct (step_init E w r v es w' HI H) as (Hv & Hs & He). pose proof (C08_init_table E w r v es w' HE Hr H) as T.
  assert (Tn : forall i, 0 <= i < 16 -> (chan_freq w' i, chan_on w' i) = nth (Z.to_nat i) (table_init r (table w)) (0, false)).
  { intros i Hi. rewrite <- T. symmetry. apply (C08_table_entries E w' i HE Hr' Hi). }
  assert (L : length (table w) = 16%nat) by apply (C08_table_entries E w 0 HE Hr ltac:(lia)).
  assert (Tt : forall i, 0 <= i < 16 -> chan_on w' i = (i <? number (region_defaults r)) /\
    (i < number (region_defaults r) -> chan_freq w' i = nth (Z.to_nat i) (region_defaults r) 0)).
  { intros i Hi. specialize (Tn i Hi). destruct (table w) as [|t0 [|t1 [|t2 [|t3 [|t4 [|t5 [|t6 [|t7 [|t8 [|t9 [|t10 [|t11 [|t12 [|t13 [|t14 [|t15 [|]]]]]]]]]]]]]]]]]; try discriminate L.
    assert (J : i = 0 \/ i = 1 \/ i = 2 \/ i = 3 \/ i = 4 \/ i = 5 \/ i = 6 \/ i = 7 \/ i = 8 \/ i = 9 \/ i = 10 \/ i = 11 \/ i = 12 \/ i = 13 \/ i = 14 \/ i = 15) by lia.
    destruct r; repeat (destruct J as [->|J]); try (subst i); injection Tn as T1 T2; (split; [exact T2|]); intro K; try exact T1; vm_compute in K; discriminate K. }
  unfold joining, fopts, idle, stk, ses. rewrite Hs.
  split; [reflexivity|]. split.
  { destruct w' as [s' h']. cbn [w_st] in Hs. exact (simple_step E (Mk_world s' h') OIsJoined (VBool false) s' HI' I ltac:(cbn [simple w_st]; rewrite Hs; reflexivity)). }
  split; [reflexivity|]. split; [reflexivity|]. split; [reflexivity|]. split; [reflexivity|].
  split; [intros i Hi; apply Tt; exact Hi|]. split; [intros i Hi; apply Tt; [destruct r; unfold number in Hi; cbn in Hi; lia|apply Hi]|].
  split; [rewrite He; reflexivity|]. split; [rewrite He; reflexivity|]. intro J. exact J.
Qed.
Print Assumptions C55_partial.
Example C55_partial_case : case_of (demo [] [(dl 8 true 0 [6] None, 9)]) (abp 3 7 ++ [OSetChannel 5 867100000] ++ after_uplink ++ [OIrq 2]) (OInit RU864)
  (fun w v es w' => negb (is_nil (fopts w)) && chan_on w 5 && ack_required (ses w) && chan_on w' 1 && negb (chan_on w' 2)).
Proof. show_case. Qed.

Definition authb (E : env) (w : world) (d : list Z) (c : Z) : bool :=
  (12 <=? length d)%nat && (at_ d 0 mod 4 =? 0) && ((at_ d 0 / 32 =? 3) || (at_ d 0 / 32 =? 5)) && (12 + fr_fopts_len d <=? length d)%nat &&
  (fr_addr d =? dev_addr (ses w)) && (fr_cnt16 d =? c mod 65536) &&
  list_eqb (fr_mic d) (data_mic (e_cmac E) (nwk_s_key (ses w)) DOWN (dev_addr (ses w)) c (fr_body d)).
Lemma authb_ok E w d c : authb E w d c = true -> authentic E w d c.
Proof.
  unfold authb, authentic, fr_down, fr_sized. intro F. repeat (apply andb_prop in F; destruct F as (F & ?)).
  repeat match goal with H : (_ =? _) = true |- _ => apply Z.eqb_eq in H end.
  split; [apply Nat.leb_le; assumption|]. split; [split; [assumption|]|].
  - match goal with H : _ || _ = true |- _ => apply orb_prop in H; destruct H as [H|H]; apply Z.eqb_eq in H; auto end.
  - split; [apply Nat.leb_le; assumption|]. split; [assumption|]. split; [assumption|apply list_eqb_eq; assumption].
Qed.
Definition cb_ok (es : list ev) : bool := match callbacks es with [(ERR_NO, _, _)] => true | _ => false end.
(** C55 is false for a join in progress: the device gives up the join with uwan_init, gets
    a session from the application, sends, and rejects the server's genuine answer, which
    it takes for a join-accept. *)
Theorem C55_refuted : exists E w ops tr w1 m v es w', env_ok E /\ reachable E w /\ joining w = true /\ Forall op_wf ops /\
  hd_error ops = Some (OInit EU868) /\ ~ In OJoin ops /\ exec E w ops tr w1 /\ number (data_frames tr) = 1 /\
  receives w1 m /\ authentic E w1 (rx_data (received E w1)) (f_cnt_down (ses w1) + 1) /\
  step E w1 (OIrq m) = Some (v, es, w') /\ (forall t vw, callbacks es <> [(ERR_NO, t, vw)]).
Proof.
  set (E := demo [7] [(dl 8 false 0 [] (Some (5, [1; 2])), 9)]).
  set (ops := [OInit EU868; OSetSession 637603841 0 7 k1 k2; OSend 1 [7] false; OIrq 4]).
  destruct (run_intro E (join_ops EU868) ops (fun w tr w1 => joining w && (number (data_frames tr) =? 1) && recvb w1 2 &&
     authb E w1 (rx_data (received E w1)) (f_cnt_down (ses w1) + 1) &&
     match step E w1 (OIrq 2) with Some (v, es, w') => negb (cb_ok es) | None => false end)) as (tr & w1 & A & B & C & D & F);
    [apply demo_ok|vm_compute; reflexivity|].
  apply andb_prop in F. destruct F as (F & F5). apply andb_prop in F. destruct F as (F & F4). apply andb_prop in F. destruct F as (F & F3).
  apply andb_prop in F. destruct F as (F1 & F2).
  destruct (step E w1 (OIrq 2)) as [[[v es] w']|] eqn:Hs; [|discriminate F5].
  exists E, (after E (join_ops EU868)), ops, tr, w1, 2, v, es, w'.
  split; [exact A|]. split; [exact B|]. split; [exact F1|]. split; [exact C|]. split; [reflexivity|].
  split. { intros [Q|[Q|[Q|[Q|[]]]]]; discriminate Q. }
  split; [exact D|]. split; [apply Z.eqb_eq; exact F2|]. split; [apply recvb_ok; exact F3|]. split; [apply authb_ok; exact F4|].
  split; [exact Hs|]. intros t vw Q. unfold cb_ok in F5. rewrite Q in F5. discriminate F5.
Qed.
Print Assumptions C55_refuted.

(** ** C56 *)
(** the application payload never takes part in MAC command processing: without FOpts
    nothing the network can configure changes, whatever the port and payload *)
Theorem C56_frmpayload_ignored : forall E w m v es w',
  env_ok E -> reachable E w -> op_wf (OIrq m) -> receives w m -> joining w = false -> step E w (OIrq m) = Some (v, es, w') ->
  fr_fopts (rx_data (received E w)) = [] ->
  dev_w w' = dev_w w /\ mac_calls es = [] /\ fopts w' = fopts w.
Proof.
  intros E w m v es w' HE Hr Hw R J Hs N. pose proof (reach_Inv E w HE Hr) as HI.
  assert (K : forall w1 w2, dev_w w1 = dev_w w2 -> fopts w1 = fopts w2) by (intros w1 w2 Q; apply (f_equal v_queue) in Q; exact Q).
  destruct (data_outcome E w m v es w' HE HI Hs R J) as [r t vw A1 A2 A3 A4 A5 K0|r c t vw A1 A2 A3 A4 A5 A6 A7 A8 A9 A10 A11 A12].
  - assert (Q : dev_w w' = dev_w w); [|auto].
    destruct K0 as (K1 & K2 & K3 & K4 & K5 & K6). unfold dev_w, dev_of, chan_table. unfold ses, stk in *. rewrite K1, K3, K4. cbn [set_ack_required ses_dr].
    assert (G : forall f : stackst -> Z, (forall k, f (but_transient k) = f k) -> f (s_stk (w_st w')) = f (s_stk (w_st w))) by
      (intros f Hf; rewrite <- (Hf (s_stk (w_st w'))), <- (Hf (s_stk (w_st w))), K6; reflexivity).
    rewrite (G uw_tx_power), (G uw_nb_trans), (G uw_rx1_offset), (G uw_rx2_frequency), (G uw_rx2_dr), (G default_rx1_delay) by reflexivity. reflexivity.
  - rewrite N in A12. cbn in A12. pose proof (f_equal fst A12) as Q1. pose proof (f_equal snd A12) as Q2. cbn [fst snd] in Q1, Q2.
    auto.
Qed.
Print Assumptions C56_frmpayload_ignored.
Definition calls_back (es : list ev) (port : Z) (l : list Z) : bool :=
  match callbacks es with [(ERR_NO, _, vw)] => (v_port vw =? port) && match v_data vw with Some d => list_eqb d l | None => false end | _ => false end.
(** a command the device answers when it comes in FOpts ... *)
Example C56_fopts_case : case_of (demo [] [(dl 8 false 0 [6; 8; 9] None, 9)]) (abp 0 7 ++ after_uplink) (OIrq 2)
  (fun w v es w' => list_eqb (fopts w') [6; 255; 9; 8] && (default_rx1_delay (stk w') =? 9000)).
Proof. show_case. Qed.
(** ... is handed to the application and not executed when it comes on port 0 *)
Example C56_port0_case : case_of (demo [] [(dl 8 false 0 [] (Some (0, [6; 8; 9])), 9)]) (abp 0 7 ++ after_uplink) (OIrq 2)
  (fun w v es w' => recvb w 2 && negb (joining w) && calls_back es 0 [6; 8; 9] && is_nil (fr_fopts (rx_data (received (demo [] [(dl 8 false 0 [] (Some (0, [6; 8; 9])), 9)]) w))) &&
     is_nil (fopts w') && (default_rx1_delay (stk w') =? 1000)).
Proof. show_case. Qed.
Theorem C56_refuted : ~ (forall E w m v es w' t vw l,
  env_ok E -> reachable E w -> op_wf (OIrq m) -> receives w m -> joining w = false -> step E w (OIrq m) = Some (v, es, w') ->
  callbacks es = [(ERR_NO, t, vw)] -> v_port vw = 0 -> v_data vw = Some l -> fr_fopts (rx_data (received E w)) = [] ->
  (dev_w w', mac_calls es) = mac_run (rx_ctx E w) (cmd_hist E w) (mac_parse l) (dev_w w)).
Proof.
  intro C. set (E := demo [] [(dl 8 false 0 [] (Some (0, [6; 8; 9])), 9)]).
  destruct (case_intro E (abp 0 7 ++ after_uplink) (OIrq 2)
    (fun w v es w' => recvb w 2 && negb (joining w) && calls_back es 0 [6; 8; 9] && is_nil (fr_fopts (rx_data (received E w))) && is_nil (fopts w') &&
       negb (is_nil (v_queue (fst (mac_run (rx_ctx E w) (cmd_hist E w) (mac_parse [6; 8; 9]) (dev_w w)))))))
    as (v & es & w' & A & B & Hw & D & F); [apply demo_ok|vm_compute; reflexivity|].
  remember (after E _) as w0 eqn:Ew. clear Ew. ands F. unfold calls_back in *.
  destruct (callbacks es) as [|[[[] t] vw] [|]] eqn:Hcb; try discriminate.
  match goal with H : (v_port vw =? 0) && _ = true |- _ => apply andb_prop in H; destruct H as (P1 & P2) end.
  destruct (v_data vw) as [l|] eqn:Hd; [|discriminate]. apply list_eqb_eq in P2. subst l. apply Z.eqb_eq in P1.
  assert (N : fr_fopts (rx_data (received E w0)) = []) by (destruct (fr_fopts _); [reflexivity|discriminate]).
  pose proof (C E w0 2 v es w' t vw _ A B Hw (recvb_ok _ _ F) ltac:(apply negb_true_iff; assumption) D Hcb P1 Hd N) as K.
  apply (f_equal fst) in K. cbn [fst] in K. rewrite <- K in *. change (v_queue (dev_w w')) with (fopts w') in *.
  destruct (fopts w'); discriminate.
Qed.
Print Assumptions C56_refuted.
(** what holds: the payload of port 0 is decrypted with NwkSKey and handed over *)
Theorem C56_partial : forall E w m v es w' t vw l,
  env_ok E -> reachable E w -> op_wf (OIrq m) -> receives w m -> joining w = false -> step E w (OIrq m) = Some (v, es, w') ->
  callbacks es = [(ERR_NO, t, vw)] -> fr_frm (rx_data (received E w)) = Some (0, l) ->
  v_port vw = 0 /\ v_size vw = len l /\
  v_data vw = Some (crypt (e_aes E) (nwk_s_key (ses w)) DOWN (dev_addr (ses w)) (f_cnt_down (ses w')) l).
Proof.
  intros E w m v es w' t vw l HE Hr Hw R J Hs Hcb Hl. pose proof (reach_Inv E w HE Hr) as HI.
  destruct (data_outcome E w m v es w' HE HI Hs R J) as [r t0 vw0 A1 A2 A3 A4 A5 K0|r c t0 vw0 A1 A2 A3 A4 A5 A6 A7 A8 A9 A10 A11 A12];
    [congruence|]. rewrite A7 in Hcb. injection Hcb as -> -> ->.
  destruct A6 as [(_ & _ & _ & -> & _)|(Q & _)]; [|discriminate Q]. unfold fr_view. rewrite Hl, A9. repeat split.
Qed.
Print Assumptions C56_partial.

(** ** C57 *)
(** LoRaWAN Regional Parameters 1.0.3: 2.2.7 and 2.12.7 *)
Definition rp_rx2 (r : region) : Z * Z := match r with EU868 => (869525000, 0) | RU864 => (869100000, 0) end.
Theorem C57_ru864_partial : forall E w v es w',
  env_ok E -> reachable E w -> step E w (OInit RU864) = Some (v, es, w') ->
  (uw_rx2_frequency (stk w'), uw_rx2_dr (stk w')) = rp_rx2 RU864.
Proof.
  intros E w v es w' HE Hr H. destruct (step_init E w RU864 v es w' (reach_Inv E w HE Hr) H) as (_ & Hs & _).
  unfold stk. rewrite Hs. reflexivity.
Qed.
Print Assumptions C57_ru864_partial.
Theorem C57_refuted : forall E w v es w',
  env_ok E -> reachable E w -> step E w (OInit EU868) = Some (v, es, w') ->
  uw_rx2_frequency (stk w') = 868100000 /\ (uw_rx2_frequency (stk w'), uw_rx2_dr (stk w')) <> rp_rx2 EU868.
Proof.
  intros E w v es w' HE Hr H. destruct (step_init E w EU868 v es w' (reach_Inv E w HE Hr) H) as (_ & Hs & _).
  unfold stk. rewrite Hs. split; [reflexivity|discriminate].
Qed.
Print Assumptions C57_refuted.
Example C57_ru864_case : case_of (demo [] []) (abp 0 7 ++ [OSetRx2 869525000 3]) (OInit RU864)
  (fun w v es w' => (uw_rx2_frequency (stk w) =? 869525000) && (uw_rx2_frequency (stk w') =? 869100000) && (uw_rx2_dr (stk w') =? 0)).
Proof. show_case. Qed.
(** where the radio listens in the second window of the first uplink *)
Example C57_eu868_case : run_of (demo [] []) [OInit EU868; OSetSession 5 0 0 k1 k2; OSend 1 [7] false; OIrq 4; OTimer TIMER_RX1] [OIrq 1; OTimer TIMER_RX2]
  (fun w tr w' => match flat_map (fun t => freqs (snd t)) tr with [f] => f =? 868100000 | _ => false end).
Proof. show_run. Qed.
