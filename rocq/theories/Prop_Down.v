(** Prop_Down.v -- received data frames: C10 - C15. *)
From Verif Require Import LDown3 Prop_Join.

(** ** C10 Downlink authenticity *)
(** A success callback occurs only when a frame is received; while joining the
    frame verifies under the AppKey, otherwise it is a well-formed data downlink
    for this device whose MIC verifies for the counter the session now holds. *)
Theorem C10_downlink_authentic : forall E w o v es w' t view,
  env_ok E -> reachable E w -> op_wf o -> step E w o = Some (v, es, w') ->
  In (ERR_NO, t, view) (callbacks es) ->
  exists m, o = OIrq m /\ receives w m /\ callbacks es = [(ERR_NO, t, view)] /\
    let d := rx_data (received E w) in
    (joining w = true /\ t = MTYPE_JOIN_ACCEPT /\ ja_valid E (app_key w) d \/
     joining w = false /\ t = at_ d 0 / 32 /\ same_keys w w' /\ authentic E w d (f_cnt_down (ses w')) /\
       view = fr_view E w d (f_cnt_down (ses w')) (rx_rssi (received E w)) (rx_snr (received E w))).
Proof.
  intros E w o v es w' t view HE Hr Hw H Hin. pose proof (reach_Inv E w HE Hr) as HI.
  assert (Ho : exists m, o = OIrq m).
  { destruct o; try (rewrite (step_nocb E w _ _ _ _ HE HI Hw H) in Hin by (intros; discriminate); contradiction). eauto. }
  destruct Ho as [m ->]. exists m. split; [reflexivity|]. destruct (recv_dec w m) as [R|R].
  2: { destruct (norx_step E w m v es w' HE HI H R). destruct nr_cb as [Q|(e & Q1 & Q2)].
       - rewrite Q in Hin. contradiction.
       - rewrite Q2 in Hin. destruct Hin as [Hin|[]]. congruence. }
  split; [exact R|]. cbv zeta. destruct (joining w) eqn:J.
  - destruct (join_outcome E w m v es w' HE HI H R J) as [r vw A B _ _ _ C D K|rg vw A B C D X F]; rewrite C in *.
    + destruct Hin as [Hin|[]]. congruence.
    + destruct Hin as [Hin|[]]. injection Hin as <- <-. split; [reflexivity|]. left. auto.
  - destruct (data_outcome E w m v es w' HE HI H R J) as [r t' vw A _ _ C _ _|r c t' vw A1 A2 A3 A4 A5 A6 C K1 K2 K3 K4 K5]; rewrite C in *.
    + destruct Hin as [Hin|[]]. congruence.
    + destruct Hin as [Hin|[]]. injection Hin as -> -> ->. split; [reflexivity|]. right. subst c.
      destruct A6 as [(_ & B1 & B2 & B3 & _)|(B1 & _)]; [|discriminate]. auto.
Qed.
Print Assumptions C10_downlink_authentic.

(** Every frame received outside a join is reported exactly once, and as success
    exactly when it is authentic and its counter is not the one already held. *)
Theorem C10_success_iff : forall E w m v es w',
  env_ok E -> reachable E w -> op_wf (OIrq m) -> receives w m -> joining w = false ->
  step E w (OIrq m) = Some (v, es, w') ->
  let d := rx_data (received E w) in
  exists r t view, callbacks es = [(r, t, view)] /\
    (r = ERR_NO <-> authentic E w d (f_cnt_down (ses w')) /\
       (f_cnt_down (ses w) = 0 \/ fr_cnt16 d <> f_cnt_down (ses w) mod 65536)).
Proof.
  intros E w m v es w' HE Hr Hw R J H d. pose proof (reach_Inv E w HE Hr) as HI.
  pose proof (data_outcome E w m v es w' HE HI H R J) as O. fold d in O. destruct O as [r t vw A B C D F K|r c t vw A1 A2 A3 A4 A5 A6 C K1 K2 K3 K4 K5];
    exists r, t, vw; (split; [assumption|]).
  - split; [congruence|]. intros ((G1 & G2 & G3 & G4 & G5 & G6) & G7). exfalso.
    destruct C as [[-> C]|[(-> & C1 & C2)|(C1 & C2 & [[-> C3]|(C3 & [[-> C4]|(-> & C4 & C5)])])]]; try (contradiction || lia).
    apply new_cnt_none in C5; [destruct C5; destruct G7; contradiction|].
    rewrite fr_cnt16_d by (unfold len; lia). apply g16_range. apply (ok_pkt_byte E HE).
  - rewrite K2. destruct A6 as [(-> & B1 & _)|(-> & B1 & _)].
    + split; [intros _|reflexivity]. split; [exact B1|].
      destruct (Z.eq_dec (f_cnt_down (ses w)) 0); [auto|right]. intro X.
      assert (N : new_cnt (f_cnt_down (ses w)) (fr_cnt16 d) = None); [|congruence].
      apply new_cnt_none; [|auto]. rewrite X. apply Z.mod_pos_bound. lia.
    + split; [discriminate|tauto].
Qed.
Print Assumptions C10_success_iff.

(** the wire format of the demo session *)
Definition dl (cnt : Z) (conf : bool) (hi : Z) (fo : list Z) (frm : option (Z * list Z)) : list Z :=
  downlink_frame toy_aes toy_cmac k1 k2 637603841 cnt conf hi fo frm.
Definition after_uplink : list op := [OSend 1 [7] false; OIrq 4].
Example C10_case : case_of (demo [] [(dl 8 true 0 [6] (Some (5, [1; 2; 3])), 9)]) (abp 0 7 ++ after_uplink) (OIrq 2)
  (fun w v es w' => recvb w 2 && negb (joining w) && cb_is ERR_NO es && (f_cnt_down (ses w') =? 8)).
Proof. show_case. Qed.
Example C10_forged_case : case_of (demo [] [(flip_last (dl 8 true 0 [6] (Some (5, [1; 2; 3]))), 9)]) (abp 0 7 ++ after_uplink) (OIrq 2)
  (fun w v es w' => recvb w 2 && negb (joining w) && cb_is ERR_MSG_MIC es).
Proof. show_case. Qed.
Example C10_same_counter_case : case_of (demo [] [(dl 7 true 0 [6] (Some (5, [1; 2; 3])), 9)]) (abp 0 7 ++ after_uplink) (OIrq 2)
  (fun w v es w' => recvb w 2 && negb (joining w) && cb_is ERR_FCNT es).
Proof. show_case. Qed.

(** ** C11 Genuine downlinks are delivered intact *)
Theorem C11_genuine_delivered : forall E w m cnt confirmed hi fo frm,
  env_ok E -> reachable E w -> op_wf (OIrq m) -> receives w m -> joining w = false ->
  next_counter (f_cnt_down (ses w)) cnt -> len fo < 16 ->
  rx_data (received E w) =
    downlink_frame (e_aes E) (e_cmac E) (nwk_s_key (ses w)) (app_s_key (ses w)) (dev_addr (ses w)) cnt confirmed hi fo frm ->
  (e_strict_shl E = false -> exists v es w', step E w (OIrq m) = Some (v, es, w')) /\
  forall v es w', step E w (OIrq m) = Some (v, es, w') ->
    callbacks es = [(ERR_NO, if confirmed then 5 else 3,
      match frm with
      | None => Mk_dlview None 0 0 (rx_rssi (received E w)) (rx_snr (received E w))
      | Some (port, data) => Mk_dlview (Some data) (len data) port (rx_rssi (received E w)) (rx_snr (received E w))
      end)] /\
    f_cnt_down (ses w') = cnt /\
    (dev_w w', mac_calls es) = mac_run (rx_ctx E w) (cmd_hist E w) (mac_parse fo) (dev_w w).
Proof.
  intros E w m cnt conf hi fo frm HE Hr Hw R J Hc Hfo Hd. pose proof (reach_Inv E w HE Hr) as HI. split.
  { intro Hs. destruct (rx_total E w m HE Hs HI R) as (es & w' & Hst). eauto. }
  intros v es w' H.
  assert (Haddr : 0 <= dev_addr (ses w) < 4294967296) by apply (iv_ses _ HI).
  destruct (downlink_fields (e_aes E) (e_cmac E) (nwk_s_key (ses w)) (app_s_key (ses w)) (dev_addr (ses w)) cnt conf hi fo frm
    (ok_cmac_len E HE) Haddr Hfo) as (F1 & F2 & F3 & F4 & F5 & F6 & F7 & F8 & F9 & F10).
  rewrite <- Hd in *. set (d := rx_data (received E w)) in *.
  pose proof (new_cnt_next _ _ Hc) as Hn. rewrite <- F5 in Hn.
  pose proof (data_outcome E w m v es w' HE HI H R J) as O. fold d in O. destruct O as [r t vw A B C D F K|r c t vw A1 A2 A3 A4 A5 A6 C K1 K2 K3 K4 K5].
  - exfalso. destruct C as [[-> C]|[(-> & C1 & C2)|(C1 & C2 & [[-> C3]|(C3 & [[-> C4]|(-> & C4 & C5)])])]]; try (contradiction || lia || congruence).
  - assert (X : cnt = c) by congruence. destruct X.
    destruct A6 as [(-> & B1 & B2 & B3 & _)|(_ & B1 & _)].
    + rewrite F6 in K5. rewrite C, B2, B3, F9. split; [|split; [exact K2|exact K5]]. f_equal. f_equal.
      unfold fr_view. rewrite F10. destruct frm as [[p l]|]; [|reflexivity].
      rewrite crypt_crypt by apply (ok_aes_len E HE). unfold len. rewrite crypt_length by apply (ok_aes_len E HE). reflexivity.
    + exfalso. apply B1. unfold authentic. auto 8.
Qed.
Print Assumptions C11_genuine_delivered.

Definition view_is (p : Z) (l : list Z) (es : list ev) : bool :=
  match callbacks es with [(ERR_NO, _, vw)] => (v_port vw =? p) && (v_size vw =? len l) &&
    match v_data vw with Some x => list_eqb x l | None => false end | _ => false end.
(** port 0 is decrypted with NwkSKey; 16-bit rollover; RX2; counter 0 at the start *)
Example C11_port0_case : case_of (demo [] [(dl 65540 false 3 [2; 9; 1] (Some (0, [6])), 9)]) (abp 0 65530 ++ after_uplink) (OIrq 2)
  (fun w v es w' => recvb w 2 && view_is 0 [6] es && (f_cnt_down (ses w') =? 65540)).
Proof. show_case. Qed.
Example C11_rx2_case : case_of (demo [] [(dl 40000 true 0 [] (Some (200, repeat 77 50)), 9)])
  (abp 0 0 ++ after_uplink ++ [OTimer TIMER_RX1; OIrq 1; OTimer TIMER_RX2]) (OIrq 2)
  (fun w v es w' => recvb w 2 && view_is 200 (repeat 77 50) es && (f_cnt_down (ses w') =? 40000)).
Proof. show_case. Qed.
Example C11_no_port_case : case_of (demo [] [(dl 9 false 0 [6] None, 9)]) (abp 0 8 ++ after_uplink) (OIrq 2)
  (fun w v es w' => match callbacks es with [(ERR_NO, 3, vw)] => match v_data vw with None => v_size vw =? 0 | _ => false end | _ => false end).
Proof. show_case. Qed.

(** ** C12 Rejected downlinks change nothing
    Refuted: the counter, the pending ACK and everything a MAC command can change
    are written before the MIC is checked (src/stack.c, handle_data_msg). *)
Theorem C12_refuted : ~ (forall E w m v es w' r t view,
  env_ok E -> reachable E w -> op_wf (OIrq m) -> receives w m -> joining w = false ->
  step E w (OIrq m) = Some (v, es, w') -> callbacks es = [(r, t, view)] -> r <> ERR_NO -> kept w w').
Proof.
  intro C. set (E := demo [] [(flip_last (dl 8 false 0 [6; 8; 9] None), 9)]).
  destruct (case_intro E (abp 0 7 ++ after_uplink) (OIrq 2)
    (fun w v es w' => recvb w 2 && negb (joining w) && cb_is ERR_MSG_MIC es && (f_cnt_down (ses w) =? 7) && (f_cnt_down (ses w') =? 8)))
    as (v & es & w' & A & B & Hw & D & F); [apply demo_ok|vm_compute; reflexivity|].
  remember (after E _) as w0 eqn:Ew. clear Ew. ands F. destruct (cb_is_ok ERR_MSG_MIC es) as (t & vw & Hcb); [assumption|].
  destruct (C E w0 2 v es w' ERR_MSG_MIC t vw A B Hw (recvb_ok _ _ F) ltac:(apply negb_true_iff; assumption) D Hcb ltac:(discriminate))
    as (_ & _ & _ & K & _).
  rewrite K in *. lia.
Qed.
Print Assumptions C12_refuted.

(** the forged frame also executed its MAC commands: receive delay 9 s, answers queued *)
Example C12_forged_commands_case : case_of (demo [] [(flip_last (dl 8 false 0 [6; 8; 9] None), 9)]) (abp 0 7 ++ after_uplink) (OIrq 2)
  (fun w v es w' => cb_is ERR_MSG_MIC es && (default_rx1_delay (stk w) =? 1000) && (default_rx1_delay (stk w') =? 9000) &&
     is_nil (fopts w) && list_eqb (fopts w') [6; 255; 9; 8]).
Proof. show_case. Qed.
(** after a forged frame with counter field 32768 the server's next frame is lost,
    though no frame was accepted in between *)
Theorem C12_desync_refuted : ~ (forall E w0 ops tr w m v es w' cnt confirmed hi fo frm,
  env_ok E -> reachable E w0 -> Forall op_wf ops -> exec E w0 ops tr w ->
  Forall (fun t => ~ new_session_entry t /\ forall c, In c (callbacks (snd t)) -> fst (fst c) <> ERR_NO) tr ->
  receives w m -> joining w = false -> step E w (OIrq m) = Some (v, es, w') ->
  next_counter (f_cnt_down (ses w0)) cnt -> len fo < 16 ->
  rx_data (received E w) =
    downlink_frame (e_aes E) (e_cmac E) (nwk_s_key (ses w)) (app_s_key (ses w)) (dev_addr (ses w)) cnt confirmed hi fo frm ->
  exists t view, callbacks es = [(ERR_NO, t, view)]).
Proof.
  intro C. set (E := demo [] [(flip_last (dl 32768 false 0 [] None), 9); (dl 8 false 0 [] (Some (1, [5])), 9)]).
  set (pre := abp 0 7 ++ after_uplink). set (ops := [OIrq 2; OSend 1 [7] false; OIrq 4]).
  destruct (run_intro E pre ops (fun w0 tr w =>
    forallb nonewb tr && forallb (fun t => match callbacks (snd t) with [] => true | [(ERR_MSG_MIC, _, _)] => true | _ => false end) tr &&
    recvb w 2 && negb (joining w) && (f_cnt_down (ses w0) =? 7) &&
    list_eqb (rx_data (received E w))
      (downlink_frame (e_aes E) (e_cmac E) (nwk_s_key (ses w)) (app_s_key (ses w)) (dev_addr (ses w)) 8 false 0 [] (Some (1, [5]))) &&
    match step E w (OIrq 2) with Some (_, es, _) => cb_is ERR_MSG_MIC es | None => false end))
    as (tr & w & A & B & Hw & D & F); [apply demo_ok|vm_compute; reflexivity|].
  remember (after E pre) as w0 eqn:Ew. clear Ew. ands F.
  destruct (step E w (OIrq 2)) as [[[v es] w']|] eqn:Es; [|discriminate].
  destruct (cb_is_ok ERR_MSG_MIC es) as (t & vw & Hcb); [assumption|].
  destruct (C E w0 ops tr w 2 v es w' 8 false 0 [] (Some (1, [5])) A B Hw D) as (t' & vw' & X).
  - apply nonewb_ok in F. rewrite Forall_forall in *. intros t0 Hin. split; [apply F; exact Hin|].
    match goal with X : forallb _ tr = true |- _ => rewrite forallb_forall in X; specialize (X _ Hin); rename X into Q end.
    intros c Hc. destruct (callbacks (snd t0)) as [|[[[] ?] ?] [|]]; try discriminate; [contradiction|].
    destruct Hc as [<-|[]]. discriminate.
  - apply recvb_ok. assumption.
  - apply negb_true_iff. assumption.
  - exact Es.
  - right. lia.
  - reflexivity.
  - apply list_eqb_eq. assumption.
  - rewrite Hcb in X. discriminate.
Qed.
Print Assumptions C12_desync_refuted.

(** What does hold. Missing against the full statement: with ERR_MSG_MIC the
    counter moves, ACK may become pending and the FOpts commands are carried out;
    the other errors may leave ACK pending. *)
Theorem C12_rejected_partial : forall E w m v es w' r t view,
  env_ok E -> reachable E w -> op_wf (OIrq m) -> receives w m -> joining w = false ->
  step E w (OIrq m) = Some (v, es, w') -> callbacks es = [(r, t, view)] -> r <> ERR_NO ->
  let d := rx_data (received E w) in
  same_keys w w' /\ s_adr (w_st w') = s_adr (w_st w) /\ untouched w w' /\
  ack_required (ses w') = ack_required (ses w) || fr_confirmedb d /\
  (r <> ERR_MSG_MIC ->
     kept_but_ack w w' (ack_required (ses w) || fr_confirmedb d) /\ mac_calls es = [] /\
     (fr_confirmedb d = false -> kept w w')) /\
  (r = ERR_MSG_MIC ->
     fr_down d /\ fr_sized d /\ fr_addr d = dev_addr (ses w) /\
     f_cnt_down (ses w') = counter_after (f_cnt_down (ses w)) (fr_cnt16 d) /\
     (dev_w w', mac_calls es) = mac_run (rx_ctx E w) (cmd_hist E w) (mac_parse (fr_fopts d)) (dev_w w) /\
     (fr_fopts d = [] -> dev_w w' = dev_w w /\ mac_calls es = [])).
Proof.
  intros E w m v es w' r t view HE Hr Hw R J H Hcb Hne d. pose proof (reach_Inv E w HE Hr) as HI.
  pose proof (data_outcome E w m v es w' HE HI H R J) as O. fold d in O. destruct O as [r' t' vw A B C D F K|r' c t' vw A1 A2 A3 A4 A5 A6 C K1 K2 K3 K4 K5].
  - rewrite D in Hcb. injection Hcb as -> -> ->. destruct K as (Q1 & Q2 & Q3 & Q4 & Q5 & Q6).
    split; [unfold same_keys; rewrite Q4; auto 6|]. split; [exact Q2|]. split.
    { unfold untouched. rewrite Q3, Q5. repeat (split; [reflexivity|]). unfold outside. rewrite Q6. reflexivity. }
    split; [rewrite Q4; reflexivity|]. split; [|congruence]. intros _. split; [unfold kept_but_ack; auto 8|]. split; [exact F|].
    intro Hc. rewrite Hc, orb_false_r in Q4. unfold kept. repeat (split; [assumption|]). split; [|auto].
    rewrite Q4. destruct (ses w). reflexivity.
  - rewrite C in Hcb. injection Hcb as -> -> ->.
    destruct A6 as [(-> & _)|(-> & B1 & B2)]; [congruence|].
    split; [exact K1|]. split; [exact B2|]. split; [exact K4|]. split; [exact K3|]. split; [congruence|].
    intros _. split; [exact A2|]. split; [exact A3|]. split; [exact A4|].
    split; [rewrite K2; symmetry; apply new_cnt_after; exact A5|]. split; [exact K5|].
    intro Hf. rewrite Hf in K5. cbn [mac_parse mac_run] in K5. split; [exact (f_equal fst K5)|exact (f_equal snd K5)].
Qed.
Print Assumptions C12_rejected_partial.
(** an unconfirmed frame for another address *)
Example C12_other_address_case : case_of (demo [] [(downlink_frame toy_aes toy_cmac k1 k2 5 8 false 0 [6; 8; 9] None, 9)]) (abp 0 7 ++ after_uplink) (OIrq 2)
  (fun w v es w' => recvb w 2 && negb (joining w) && cb_is ERR_DEV_ADDR es && negb (fr_confirmedb (rx_data (received (demo [] [(downlink_frame toy_aes toy_cmac k1 k2 5 8 false 0 [6; 8; 9] None, 9)]) w)))).
Proof. show_case. Qed.

(** ** C13 No downlink replay
    Refuted: a counter of 0 counts as "nothing received yet" (src/stack.c), so a
    frame with counter 0 is accepted again and again, and the 32-bit counter wraps. *)
Theorem C13_refuted : ~ (forall E w ops tr w',
  env_ok E -> reachable E w -> Forall op_wf ops -> exec E w ops tr w' ->
  Forall (fun t => ~ new_session_entry t) tr -> NoDup (delivered tr)).
Proof.
  intro C. set (f := dl 0 false 0 [] (Some (3, [1]))). set (E := demo [] [(f, 9); (f, 9)]).
  destruct (run_intro E (abp 0 0 ++ after_uplink) [OIrq 2; OSend 1 [7] false; OIrq 4; OIrq 2]
    (fun w tr w' => forallb nonewb tr && match delivered tr with [a; b] => list_eqb a b | _ => false end))
    as (tr & w' & A & B & Hw & D & F); [apply demo_ok|vm_compute; reflexivity|].
  remember (after E _) as w0 eqn:Ew. clear Ew. ands F.
  pose proof (C E w0 _ tr w' A B Hw D (nonewb_ok _ F)) as N.
  destruct (delivered tr) as [|a [|b [|]]]; try discriminate. apply list_eqb_eq in H. subst b.
  inversion N as [|? ? N1 N2]. apply N1. left. reflexivity.
Qed.
Print Assumptions C13_refuted.
(** the wrap: counter 0 after 4294967295 *)
Example C13_wrap_case : case_of (demo [] [(dl 0 false 0 [] None, 9)]) (abp 0 4294967295 ++ after_uplink) (OIrq 2)
  (fun w v es w' => cb_is ERR_NO es && (f_cnt_down (ses w) =? 4294967295) && (f_cnt_down (ses w') =? 0)).
Proof. show_case. Qed.

(** Missing against the full statement: the first counter must not be 0 and the
    counter must be far enough from 2^32 for the number of calls considered. *)
Theorem C13_counters_increase_partial : forall E w1 m1 v1 es1 w1' ops tr w2 m2 v2 es2 w2',
  env_ok E -> reachable E w1 ->
  op_wf (OIrq m1) -> step E w1 (OIrq m1) = Some (v1, es1, w1') -> receives w1 m1 -> delivers E w1 m1 es1 ->
  Forall op_wf ops -> exec E w1' ops tr w2 -> Forall (fun t => ~ new_session_entry t) tr ->
  op_wf (OIrq m2) -> step E w2 (OIrq m2) = Some (v2, es2, w2') -> receives w2 m2 -> delivers E w2 m2 es2 ->
  0 < f_cnt_down (ses w1') -> f_cnt_down (ses w1') + 131072 * (Z.of_nat (length tr) + 1) <= 4294967296 ->
  let c1 := f_cnt_down (ses w1') in let c2 := f_cnt_down (ses w2') in
  c1 < c2 /\
  (** the same bytes a second time: only if the MIC does not depend on the counter *)
  (rx_data (received E w1) = rx_data (received E w2) ->
   let body := fr_body (rx_data (received E w1)) in
   data_mic (e_cmac E) (nwk_s_key (ses w1)) DOWN (dev_addr (ses w1)) c1 body =
   data_mic (e_cmac E) (nwk_s_key (ses w1)) DOWN (dev_addr (ses w1)) c2 body).
Proof.
  intros E w1 m1 v1 es1 w1' ops tr w2 m2 v2 es2 w2' HE Hr Hw1 H1 R1 (J1 & t1 & vw1 & D1) Hops Hx Hn Hw2 H2 R2 (J2 & t2 & vw2 & D2) Hp Hb.
  pose proof (reach_Inv E w1 HE Hr) as HI1. pose proof (step_Inv E w1 _ _ _ _ HE HI1 Hw1 H1) as HI1'.
  pose proof (exec_Inv E w1' ops tr w2 HE HI1' Hops Hx) as HI2.
  pose proof (exec_cnt E w1' ops tr w2 HE HI1' Hops Hx Hn Hp ltac:(lia)) as Hc. cbv zeta.
  destruct (data_outcome E w1 m1 v1 es1 w1' HE HI1 H1 R1 J1) as [r t vw A _ _ C _ _|r c t vw A1 A2 A3 A4 A5 A6 C K1 K2 K3 K4 K5].
  { rewrite C in D1. congruence. }
  rewrite C in D1. injection D1 as -> _ _. destruct A6 as [(_ & M1 & _)|(M1 & _)]; [|discriminate].
  destruct (data_outcome E w2 m2 v2 es2 w2' HE HI2 H2 R2 J2) as [r t' vw' A _ _ C' _ _|r c' t' vw' B1 B2 B3 B4 B5 B6 C' L1 L2 L3 L4 L5].
  { rewrite C' in D2. congruence. }
  rewrite C' in D2. injection D2 as -> _ _. destruct B6 as [(_ & M2 & _)|(M2 & _)]; [|discriminate].
  assert (Hlt : f_cnt_down (ses w1') < f_cnt_down (ses w2')).
  { assert (Hf : 0 <= fr_cnt16 (rx_data (received E w2)) < 65536)
      by (rewrite fr_cnt16_d by (unfold len; lia); apply g16_range; apply (ok_pkt_byte E HE)).
    rewrite L2. assert (P0 : 0 < f_cnt_down (ses w2)) by lia. assert (P1 : f_cnt_down (ses w2) + 131072 <= 4294967296) by lia.
    pose proof (new_cnt_up _ _ _ P0 P1 Hf B5). lia. }
  split; [exact Hlt|]. intro Heq. rewrite K2, L2. destruct M1 as (_ & _ & _ & _ & _ & M1). destruct M2 as (_ & _ & _ & _ & _ & M2).
  rewrite <- M1. rewrite <- Heq in M2. rewrite M2.
  destruct K1 as (Q1 & Q2 & _).
  assert (S : same_session (ses w1') (ses w2)).
  { clear - HE HI1' Hops Hx Hn. revert HI1'. induction Hx as [w|w o ops v es w3 tr w2 H Hx IH]; intro HI; [apply same_session_refl|].
    pose proof (Forall_inv Hops) as Hw1. pose proof (Forall_inv_tail Hops) as Hw2. pose proof (Forall_inv Hn) as Hn1. pose proof (Forall_inv_tail Hn) as Hn2.
    destruct (step_ses E w o v es w3 HE HI Hw1 H Hn1) as [S1 _].
    specialize (IH Hw2 Hn2 (step_Inv E w _ _ _ _ HE HI Hw1 H)). destruct S1, IH. constructor; congruence. }
  destruct S as [S1 S2 S3]. rewrite S1, S2, Q1, Q2. reflexivity.
Qed.
Print Assumptions C13_counters_increase_partial.
(** one frame: the counter of a delivered frame is larger than the one held *)
Theorem C13_step_partial : forall E w m v es w',
  env_ok E -> reachable E w -> op_wf (OIrq m) -> receives w m -> step E w (OIrq m) = Some (v, es, w') -> delivers E w m es ->
  0 < f_cnt_down (ses w) <= 4294967296 - 131072 -> f_cnt_down (ses w) < f_cnt_down (ses w').
Proof.
  intros E w m v es w' HE Hr Hw R H (J & t & vw & D) Hp. pose proof (reach_Inv E w HE Hr) as HI.
  destruct (data_outcome E w m v es w' HE HI H R J) as [r t' vw' A _ _ C _ _|r c t' vw' A1 A2 A3 A4 A5 A6 C K1 K2 K3 K4 K5].
  { rewrite C in D. congruence. }
  assert (Hf : 0 <= fr_cnt16 (rx_data (received E w)) < 65536)
    by (rewrite fr_cnt16_d by (unfold len; lia); apply g16_range; apply (ok_pkt_byte E HE)).
  assert (P0 : 0 < f_cnt_down (ses w)) by lia. assert (P1 : f_cnt_down (ses w) + 131072 <= 4294967296) by lia.
  pose proof (new_cnt_up _ _ _ P0 P1 Hf A5). lia.
Qed.
Print Assumptions C13_step_partial.
Example C13_replay_case :
  run_of (demo [] [(dl 8 false 0 [] (Some (3, [1])), 9); (dl 8 false 0 [] (Some (3, [1])), 9); (dl 9 false 0 [] (Some (3, [1])), 9)])
    (abp 0 7 ++ after_uplink) [OIrq 2; OSend 1 [7] false; OIrq 4; OIrq 2; OSend 1 [7] false; OIrq 4; OIrq 2]
    (fun w tr w' => forallb nonewb tr && (length (delivered tr) =? 2)%nat && (f_cnt_down (ses w') =? 9)).
Proof. show_run. Qed.

(** ** C14 Downlink counter reconstruction *)
(** the counter of a frame for this device becomes [n] whatever else is in it *)
Theorem C14_reconstruct_partial : forall E w m v es w' n,
  env_ok E -> reachable E w -> op_wf (OIrq m) -> receives w m -> joining w = false ->
  step E w (OIrq m) = Some (v, es, w') ->
  let d := rx_data (received E w) in
  (12 <= length d)%nat -> fr_down d -> fr_sized d -> fr_addr d = dev_addr (ses w) ->
  next_counter (f_cnt_down (ses w)) n -> fr_cnt16 d = n mod 65536 ->
  f_cnt_down (ses w') = n.
Proof.
  intros E w m v es w' n HE Hr Hw R J H d H12 Hdn Hsz Had Hc Hn. pose proof (reach_Inv E w HE Hr) as HI.
  pose proof (new_cnt_next _ _ Hc) as X. rewrite <- Hn in X.
  pose proof (data_outcome E w m v es w' HE HI H R J) as O. fold d in O. destruct O as [r t vw A B C D F K|r c t vw A1 A2 A3 A4 A5 A6 C K1 K2 K3 K4 K5].
  - exfalso. destruct C as [[-> C]|[(-> & C1 & C2)|(C1 & C2 & [[-> C3]|(C3 & [[-> C4]|(-> & C4 & C5)])])]]; try (contradiction || lia || congruence).
  - congruence.
Qed.
Print Assumptions C14_reconstruct_partial.
Example C14_rollover_case : case_of (demo [] [(dl 81919 false 0 [] None, 9)]) (abp 0 65535 ++ after_uplink) (OIrq 2)
  (fun w v es w' => recvb w 2 && (f_cnt_down (ses w) =? 65535) && (f_cnt_down (ses w') =? 81919) && cb_is ERR_NO es).
Proof. show_case. Qed.

(** What every frame for this device does to the counter, over all pairs of a
    32-bit counter and a 16-bit field. Missing against the full statement: gaps
    above 16384 are not rejected but moved to the next block of 65536. *)
Theorem C14_exact_partial : forall E w m v es w',
  env_ok E -> reachable E w -> op_wf (OIrq m) -> receives w m -> joining w = false ->
  step E w (OIrq m) = Some (v, es, w') ->
  let d := rx_data (received E w) in
  (12 <= length d)%nat -> fr_down d -> fr_sized d -> fr_addr d = dev_addr (ses w) ->
  f_cnt_down (ses w') = counter_after (f_cnt_down (ses w)) (fr_cnt16 d) /\
  (f_cnt_down (ses w) <> 0 -> fr_cnt16 d = f_cnt_down (ses w) mod 65536 ->
     exists t view, callbacks es = [(ERR_FCNT, t, view)]).
Proof.
  intros E w m v es w' HE Hr Hw R J H d H12 Hdn Hsz Had. pose proof (reach_Inv E w HE Hr) as HI.
  assert (Hf : 0 <= fr_cnt16 d < 65536)
    by (rewrite fr_cnt16_d by (unfold len; lia); apply g16_range; apply (ok_pkt_byte E HE)).
  pose proof (data_outcome E w m v es w' HE HI H R J) as O. fold d in O. destruct O as [r t vw A B C D F K|r c t vw A1 A2 A3 A4 A5 A6 C K1 K2 K3 K4 K5].
  - destruct C as [[-> C]|[(-> & C1 & C2)|(C1 & C2 & [[-> C3]|(C3 & [[-> C4]|(-> & C4 & C5)])])]]; try (contradiction || lia || congruence).
    pose proof (proj1 (new_cnt_none _ _ Hf) C5) as (C6 & C7). split; [|intros _ _; eauto].
    destruct K as (_ & _ & _ & Q4 & _). rewrite Q4. cbn [set_ack_required f_cnt_down]. unfold counter_after. cbv zeta.
    assert (Hcur : 0 <= f_cnt_down (ses w) < 4294967296) by apply (iv_ses _ HI).
    rewrite C7, Zminus_mod_idemp_l, Z.sub_diag. change (0 mod 65536) with 0. destruct (Z.eqb_spec (f_cnt_down (ses w)) 0); [contradiction|].
    cbn [Z.leb Z.compare]. rewrite Z.add_0_r, Z.mod_small by lia. reflexivity.
  - split; [rewrite K2; symmetry; apply new_cnt_after; exact A5|]. intros C6 C7. exfalso.
    rewrite (proj2 (new_cnt_none _ _ Hf) (conj C6 C7)) in A5. discriminate.
Qed.
Print Assumptions C14_exact_partial.
(** a gap of exactly 16385 without roll-over jumps to the next block *)
Example C14_exact_case : case_of (demo [] [(dl 16485 false 0 [] None, 9)]) (abp 0 100 ++ after_uplink) (OIrq 2)
  (fun w v es w' => recvb w 2 && (f_cnt_down (ses w) =? 100) && (f_cnt_down (ses w') =? 82021) && cb_is ERR_MSG_MIC es).
Proof. show_case. Qed.

(** Refuted: counters more than 16384 ahead are accepted when the 16-bit field
    has rolled over. *)
Theorem C14_refuted : ~ (forall E w m v es w' n confirmed hi fo frm,
  env_ok E -> reachable E w -> op_wf (OIrq m) -> receives w m -> joining w = false ->
  step E w (OIrq m) = Some (v, es, w') -> len fo < 16 ->
  rx_data (received E w) =
    downlink_frame (e_aes E) (e_cmac E) (nwk_s_key (ses w)) (app_s_key (ses w)) (dev_addr (ses w)) n confirmed hi fo frm ->
  0 < f_cnt_down (ses w) -> f_cnt_down (ses w) + 16384 < n -> ~ delivers E w m es).
Proof.
  intro C. set (E := demo [] [(dl 100000 false 0 [] None, 9)]).
  destruct (case_intro E (abp 0 60000 ++ after_uplink) (OIrq 2)
    (fun w v es w' => recvb w 2 && negb (joining w) && cb_is ERR_NO es && (f_cnt_down (ses w) =? 60000) &&
       list_eqb (rx_data (received E w))
      (downlink_frame (e_aes E) (e_cmac E) (nwk_s_key (ses w)) (app_s_key (ses w)) (dev_addr (ses w)) 100000 false 0 [] None)))
    as (v & es & w' & A & B & Hw & D & F); [apply demo_ok|vm_compute; reflexivity|].
  remember (after E _) as w0 eqn:Ew. clear Ew. ands F. destruct (cb_is_ok ERR_NO es) as (t & vw & Hcb); [assumption|].
  assert (J : joining w0 = false) by (apply negb_true_iff; assumption).
  apply (C E w0 2 v es w' 100000 false 0 [] None A B Hw (recvb_ok _ _ F) J D eq_refl).
  - apply list_eqb_eq. assumption.
  - lia.
  - lia.
  - split; [exact J|]. eauto.
Qed.
Print Assumptions C14_refuted.

(** What does hold: a frame whose counter is 131072 or more ahead is delivered
    only if its MIC is also the MIC for another counter. *)
Theorem C14_far_rejected_partial : forall E w m v es w' n confirmed hi fo frm,
  env_ok E -> reachable E w -> op_wf (OIrq m) -> receives w m -> joining w = false ->
  step E w (OIrq m) = Some (v, es, w') -> len fo < 16 ->
  let d := rx_data (received E w) in
  d = downlink_frame (e_aes E) (e_cmac E) (nwk_s_key (ses w)) (app_s_key (ses w)) (dev_addr (ses w)) n confirmed hi fo frm ->
  0 < f_cnt_down (ses w) -> f_cnt_down (ses w) + 131072 <= n -> n < 4294967296 -> delivers E w m es ->
  exists c, c <> n /\ c mod 65536 = n mod 65536 /\
    data_mic (e_cmac E) (nwk_s_key (ses w)) DOWN (dev_addr (ses w)) c (fr_body d) =
    data_mic (e_cmac E) (nwk_s_key (ses w)) DOWN (dev_addr (ses w)) n (fr_body d).
Proof.
  intros E w m v es w' n conf hi fo frm HE Hr Hw R J H Hfo d Hd Hp Hn Hn2 (_ & t & vw & D). pose proof (reach_Inv E w HE Hr) as HI.
  assert (Haddr : 0 <= dev_addr (ses w) < 4294967296) by apply (iv_ses _ HI).
  destruct (downlink_fields (e_aes E) (e_cmac E) (nwk_s_key (ses w)) (app_s_key (ses w)) (dev_addr (ses w)) n conf hi fo frm
    (ok_cmac_len E HE) Haddr Hfo) as (F1 & F2 & F3 & F4 & F5 & F6 & F7 & F8 & F9 & F10).
  rewrite <- Hd in F1, F2, F3, F4, F5, F6, F7, F8, F9, F10.
  pose proof (data_outcome E w m v es w' HE HI H R J) as O. fold d in O.
  destruct O as [r t' vw' A B C X F K|r c t' vw' A1 A2 A3 A4 A5 A6 C K1 K2 K3 K4 K5].
  { rewrite X in D. congruence. }
  rewrite C in D. injection D as -> _ _. destruct A6 as [(_ & M1 & _)|(M1 & _)]; [|discriminate].
  assert (Hf : 0 <= fr_cnt16 d < 65536) by (rewrite F5; apply Z.mod_pos_bound; lia).
  pose proof (new_cnt_up _ _ _ Hp ltac:(lia) Hf A5) as Hc.
  destruct M1 as (_ & _ & _ & _ & M2 & M1). exists c. split; [lia|]. split; [congruence|]. congruence.
Qed.
Print Assumptions C14_far_rejected_partial.
Example C14_far_case : case_of (demo [] [(dl 200000 false 0 [] None, 9)]) (abp 0 60000 ++ after_uplink) (OIrq 2)
  (fun w v es w' => recvb w 2 && cb_is ERR_MSG_MIC es && negb (f_cnt_down (ses w') =? 60000)).
Proof. show_case. Qed.

(** ** C15 ACK bit is faithful *)
(** Between two uplinks (or from a new session to the first uplink): the second
    carries ACK exactly when a frame with a confirmed-downlink header was received
    in between. Missing against the full statement: the frame need not have been
    accepted, see C15_refuted. *)
Theorem C15_ack_bit_partial : forall E w0 o0 v0 es0 w1 ops tr w2 o v es w3 f,
  env_ok E -> reachable E w0 -> op_wf o0 -> step E w0 o0 = Some (v0, es0, w1) ->
  data_frames [(o0, v0, es0)] <> [] \/ new_session_entry (o0, v0, es0) ->
  Forall op_wf ops -> exec E w1 ops tr w2 ->
  Forall (fun t => ~ new_session_entry t) tr -> data_frames tr = [] ->
  op_wf o -> step E w2 o = Some (v, es, w3) -> data_frames [(o, v, es)] = [f] ->
  (fr_ack f = true <-> confirmed_seen E w1 ops tr).
Proof.
  intros E w0 o0 v0 es0 w1 ops tr w2 o v es w3 f HE Hr Hw0 H0 Hs Hops Hx Hn Hd Hw H Hf.
  pose proof (reach_Inv E w0 HE Hr) as HI0. pose proof (step_Inv E w0 _ _ _ _ HE HI0 Hw0 H0) as HI1.
  pose proof (clean_start E w0 o0 v0 es0 w1 HE Hr Hw0 H0 Hs) as Hc.
  pose proof (exec_Inv E w1 ops tr w2 HE HI1 Hops Hx) as HI2.
  pose proof (exec_ack E w1 ops tr w2 HE HI1 Hops Hx Hn Hd) as Ha. rewrite Hc in Ha.
  assert (Hns : ~ new_session_entry (o, v, es)).
  { intro X. unfold new_session_entry in X. cbn [fst snd] in X.
    pose proof (step_tx E w2 o v es w3 HE HI2 Hw H) as T. destruct T as [p d c h1 s1 S|A B C D F G|A B].
    - destruct (sent_obs _ _ _ _ _ _ _ _ _ _ _ _ S) as (_ & Hcb & _). destruct S.
      destruct o; try discriminate; exact (nocb_accepts es Hcb X).
    - subst o. discriminate.
    - unfold data_frames in Hf. cbn [flat_map fst snd] in Hf. rewrite A in Hf. destruct o; discriminate. }
  destruct (step_link E w2 o v es w3 HE HI2 Hw H Hns) as [m _ _ _ Q|f' Q Hk _ _|Q _ _]; try congruence.
  rewrite Q in Hf. injection Hf as ->. rewrite Hk, Ha. split; [intros [?|?]; [discriminate|assumption]|auto].
Qed.
Print Assumptions C15_ack_bit_partial.
Example C15_ack_case :
  run_of (demo [] [(dl 8 true 0 [] (Some (3, [1])), 9)]) (abp 0 7) [OSend 1 [7] false; OIrq 4; OIrq 2; OSend 1 [7] false; OIrq 4; OIrq 1; OTimer TIMER_RX2; OIrq 1; OSend 1 [7] false]
    (fun w tr w' => match map fr_ack (data_frames tr) with [false; true; false] => true | _ => false end).
Proof. show_run. Qed.

(** Refuted: the flag is set before the address, the counter and the MIC are
    looked at (src/stack.c, handle_data_msg). *)
Theorem C15_refuted : ~ (forall E w1 ops tr w2 o v es w3 f,
  env_ok E -> reachable E w1 -> ack_required (ses w1) = false ->
  Forall op_wf ops -> exec E w1 ops tr w2 ->
  Forall (fun t => ~ new_session_entry t) tr -> data_frames tr = [] ->
  op_wf o -> step E w2 o = Some (v, es, w3) -> data_frames [(o, v, es)] = [f] -> fr_ack f = true ->
  delivered tr <> []).
Proof.
  intro C. set (E := demo [] [(downlink_frame toy_aes toy_cmac k3 k3 5 1 true 0 [] None, 9)]).
  destruct (run_intro E (abp 0 7 ++ after_uplink) [OIrq 2]
    (fun w tr w' => forallb nonewb tr && negb (ack_required (ses w)) && is_nil (data_frames tr) && is_nil (delivered tr) &&
       match step E w' (OSend 1 [7] false) with
       | Some (v, es, w3) => match data_frames [(OSend 1 [7] false, v, es)] with [f] => fr_ack f | _ => false end
       | None => false end))
    as (tr & w' & A & B & Hw & D & F); [apply demo_ok|vm_compute; reflexivity|].
  remember (after E _) as w0 eqn:Ew. clear Ew. ands F.
  destruct (step E w' (OSend 1 [7] false)) as [[[v es] w3]|] eqn:Es; [|discriminate].
  destruct (data_frames [(OSend 1 [7] false, v, es)]) as [|f [|]] eqn:Ef; try discriminate.
  destruct (data_frames tr) eqn:Ed; [|discriminate]. destruct (delivered tr) eqn:El; [|discriminate].
  refine (C E w0 _ tr w' _ v es w3 f A B _ Hw D (nonewb_ok _ F) Ed _ Es Ef _ El).
  - apply negb_true_iff. assumption.
  - apply op_wfb_ok. reflexivity.
  - assumption.
Qed.
Print Assumptions C15_refuted.
