(** LDown3.v -- server frames, the counter rule, ACK and counter along executions. *)
From Verif Require Export LDown2 Demo.

Lemma fc_nibble hi n : 0 <= n < 16 -> (16 * hi + n) mod 16 = n.
Proof. intro H. rewrite Z.add_comm, Z.mul_comm, Z_mod_plus_full. apply Z.mod_small. exact H. Qed.

(** a frame built by the server, read back *)
Lemma downlink_fields aes cmac nwk apk addr cnt conf hi fo frm :
  (forall k m, length (cmac k m) = 16%nat) ->
  0 <= addr < 4294967296 -> len fo < 16 ->
  let f := downlink_frame aes cmac nwk apk addr cnt conf hi fo frm in
  (12 <= length f)%nat /\ fr_down f /\ fr_sized f /\ fr_addr f = addr /\ fr_cnt16 f = cnt mod 65536 /\
  fr_fopts f = fo /\ fr_mic f = data_mic cmac nwk DOWN addr cnt (fr_body f) /\ fr_confirmedb f = conf /\
  at_ f 0 / 32 = (if conf then 5 else 3) /\
  fr_frm f = match frm with None => None | Some (p, d) => Some (p, crypt aes (down_key nwk apk p) DOWN addr cnt d) end.
Proof.
  intros Hc Haddr Hfo f. unfold f, downlink_frame, sealed.
  set (tl := match frm with None => [] | Some (port, payload) => port :: crypt aes (down_key nwk apk port) DOWN addr cnt payload end).
  set (body := downlink_body aes nwk apk addr cnt conf hi fo frm).
  set (mic := data_mic cmac nwk DOWN addr cnt body).
  assert (Hm : length mic = 4%nat) by (unfold mic, data_mic; rewrite firstn_length, Hc; reflexivity).
  assert (Hb : body = ([if conf then MHDR_CONF_DOWN else MHDR_UNCONF_DOWN] ++ le 4 addr ++ [16 * hi + len fo] ++ le 2 cnt) ++ fo ++ tl)
    by (unfold body, downlink_body; rewrite <- !app_assoc; reflexivity).
  set (hd := [if conf then MHDR_CONF_DOWN else MHDR_UNCONF_DOWN] ++ le 4 addr ++ [16 * hi + len fo] ++ le 2 cnt) in *.
  assert (Hh : length hd = 8%nat) by reflexivity.
  assert (Hbl : length body = (8 + length fo + length tl)%nat) by (rewrite Hb, !app_length, Hh; lia).
  assert (Hbody : fr_body (body ++ mic) = body).
  { unfold fr_body. apply firstn_exact. rewrite app_length. lia. }
  assert (Hfl : fr_fopts_len (body ++ mic) = length fo).
  { unfold fr_fopts_len. assert (A : at_ (body ++ mic) 5 = 16 * hi + len fo).
    { unfold at_. rewrite app_nth1 by lia. rewrite Hb. rewrite app_nth1 by lia. reflexivity. }
    rewrite A, fc_nibble by (unfold len in *; lia). unfold len. lia. }
  assert (A0 : at_ (body ++ mic) 0 = if conf then MHDR_CONF_DOWN else MHDR_UNCONF_DOWN).
  { unfold at_. rewrite app_nth1 by lia. rewrite Hb. rewrite app_nth1 by lia. reflexivity. }
  assert (Hd : skipn 8 (body ++ mic) = fo ++ tl ++ mic)
    by (rewrite Hb, <- !app_assoc; apply Wp.skipn_exact; exact Hh).
  assert (H12 : (12 <= length (body ++ mic))%nat) by (rewrite app_length; lia).
  split; [exact H12|]. split; [|split; [|split; [|split; [|split; [|split; [|split; [|split]]]]]]].
  - unfold fr_down. rewrite A0. destruct conf; vm_compute; auto.
  - unfold fr_sized. rewrite Hfl, app_length. lia.
  - unfold fr_addr, slice. rewrite Hb, <- app_assoc. change (skipn 1 (hd ++ (fo ++ tl) ++ mic)) with (le 4 addr ++ ([16 * hi + len fo] ++ le 2 cnt) ++ (fo ++ tl) ++ mic).
    rewrite (firstn_exact 4) by reflexivity. rewrite unle_le. apply Z.mod_small. exact Haddr.
  - unfold fr_cnt16, slice. rewrite Hb, <- app_assoc. change (skipn 6 (hd ++ (fo ++ tl) ++ mic)) with (le 2 cnt ++ (fo ++ tl) ++ mic).
    rewrite (firstn_exact 2) by reflexivity. rewrite unle_le. reflexivity.
  - unfold fr_fopts, slice. rewrite Hfl, Hd. apply firstn_exact. reflexivity.
  - rewrite Hbody. unfold fr_mic. apply Wp.skipn_exact. rewrite app_length. lia.
  - unfold fr_confirmedb. rewrite A0. replace (12 <=? length (body ++ mic))%nat with true by (symmetry; apply Nat.leb_le; exact H12).
    destruct conf; reflexivity.
  - rewrite A0. destruct conf; reflexivity.
  - unfold fr_frm. rewrite Hfl, Hbody. rewrite Hb, app_assoc.
    rewrite Wp.skipn_exact by (rewrite app_length, Hh; lia). unfold tl. destruct frm as [[p d]|]; reflexivity.
Qed.

(** ** The counter rule *)
Lemma new_cnt_next cur n : next_counter cur n -> new_cnt cur (n mod 65536) = Some n.
Proof.
  intros [[-> H]|(H & H1 & H2)]; unfold new_cnt.
  - cbn [Z.eqb]. rewrite Z.mod_small by lia. reflexivity.
  - destruct (Z.eqb_spec cur 0); [lia|]. cbv zeta. rewrite Zminus_mod_idemp_l.
    rewrite (Z.mod_small (n - cur)) by lia. destruct (Z.eqb_spec (n - cur) 0); [lia|].
    destruct (Z.leb_spec (n - cur) 16384); [|lia]. f_equal. unfold u32. rewrite Z.mod_small by lia. lia.
Qed.
Lemma new_cnt_after cur f16 c : new_cnt cur f16 = Some c -> counter_after cur f16 = c.
Proof.
  unfold new_cnt, counter_after, u32. cbv zeta. destruct (Z.eqb_spec cur 0); [congruence|].
  destruct (_ =? 0); [discriminate|]. destruct (_ <=? 16384); intro H; injection H as <-; [reflexivity|].
  f_equal. pose proof (Z.div_mod cur 65536 ltac:(lia)). lia.
Qed.
Lemma new_cnt_none cur f16 : 0 <= f16 < 65536 -> (new_cnt cur f16 = None <-> cur <> 0 /\ f16 = cur mod 65536).
Proof.
  intro H. unfold new_cnt. destruct (Z.eqb_spec cur 0) as [C|C]; [split; [discriminate|tauto]|]. cbv zeta.
  assert (M : (f16 - cur) mod 65536 = 0 <-> f16 = cur mod 65536).
  { split; intro M; [|rewrite M, Zminus_mod_idemp_l, Z.sub_diag; reflexivity].
    apply Z.mod_divide in M; [|lia]. destruct M as [k M]. replace cur with (f16 + (- k) * 65536) by lia.
    rewrite Z_mod_plus_full. symmetry. apply Z.mod_small. exact H. }
  destruct (Z.eqb_spec ((f16 - cur) mod 65536) 0); [tauto|].
  destruct (_ <=? _); (split; [discriminate|tauto]).
Qed.
Lemma new_cnt_up cur f16 c : 0 < cur -> cur + 131072 <= 4294967296 -> 0 <= f16 < 65536 -> new_cnt cur f16 = Some c ->
  cur < c < cur + 131072.
Proof.
  intros H0 H1 Hf. unfold new_cnt. destruct (Z.eqb_spec cur 0); [lia|]. cbv zeta.
  pose proof (Z.mod_pos_bound (f16 - cur) 65536 ltac:(lia)). pose proof (Z.mod_pos_bound cur 65536 ltac:(lia)).
  destruct (Z.eqb_spec ((f16 - cur) mod 65536) 0); [discriminate|].
  destruct (Z.leb_spec ((f16 - cur) mod 65536) 16384); intro E; injection E as <-; unfold u32; rewrite Z.mod_small by lia; lia.
Qed.

(** ** What a call does to the pending ACK and the downlink counter *)
Inductive link_case (E : env) (w : world) (o : op) (v : val) (es : list ev) (w' : world) : Prop :=
| LK_rx m : o = OIrq m -> receives w m -> joining w = false -> data_frames [(o, v, es)] = [] -> link_case E w o v es w'
| LK_tx f : data_frames [(o, v, es)] = [f] -> fr_ack f = ack_required (ses w) ->
    f_cnt_down (ses w') = f_cnt_down (ses w) -> ack_required (ses w') = false -> link_case E w o v es w'
| LK_no : data_frames [(o, v, es)] = [] ->
    f_cnt_down (ses w') = f_cnt_down (ses w) -> ack_required (ses w') = ack_required (ses w) -> link_case E w o v es w'.

Lemma uplink_ack E p d c s : Inv s -> fr_ack (send_frame_bytes E p d c s) = ack_required (s_ses s).
Proof.
  intro HI. unfold fr_ack, send_frame_bytes.
  assert (A : at_ (uplink_frame (e_aes E) (e_cmac E) (nwk_s_key (s_ses s)) (app_s_key (s_ses s)) (dev_addr (s_ses s))
    (f_cnt_up (s_ses s)) c (adr_is_enabled (s_adr s)) (up_req s) (ack_required (s_ses s)) (queue (s_mac s)) p d) 5
    = up_fctrl (adr_is_enabled (s_adr s)) (up_req s) (ack_required (s_ses s)) (queue (s_mac s))) by reflexivity.
  rewrite A. unfold up_fctrl. apply fctrl_bits. rewrite queue_len by apply HI. pose proof (iv_mac _ HI) as K. destruct K. lia.
Qed.

Lemma accepts_of_cb es vw : callbacks es = [(ERR_NO, 1, vw)] -> accepts_join es.
Proof.
  intro H. exists vw. induction es as [|e es IH]; [discriminate|].
  destruct e; cbn [callbacks] in H; try (right; apply IH; exact H). left. injection H. intros. subst. reflexivity.
Qed.

Lemma step_link E w o v es w' : env_ok E -> Inv (w_st w) -> op_wf o -> step E w o = Some (v, es, w') ->
  ~ new_session_entry (o, v, es) -> link_case E w o v es w'.
Proof.
  intros HE HI Hw H Hn. pose proof (step_tx E w o v es w' HE HI Hw H) as T.
  destruct T as [p d c h1 s1 S|A B C D F G|A B].
  - destruct (sent_obs _ _ _ _ _ _ _ _ _ _ _ _ S) as (Ht & _). destruct S as [Hcall _ _ Hsame _ _ _ _ Hst _ _ HI1 _].
    apply (LK_tx _ _ _ _ _ _ (send_frame_bytes E p d c s1)).
    + unfold data_frames. cbn [flat_map fst snd]. rewrite app_nil_r, Ht. destruct o; try reflexivity; discriminate.
    + rewrite uplink_ack by exact HI1. destruct Hsame as (cc & ->). reflexivity.
    + unfold ses. rewrite Hst. destruct Hsame as (cc & ->). reflexivity.
    + unfold ses. rewrite Hst. reflexivity.
  - subst o. apply LK_no; [reflexivity|unfold ses; rewrite F; reflexivity..].
  - assert (Hdf : data_frames [(o, v, es)] = []) by (unfold data_frames; cbn [flat_map fst snd]; rewrite app_nil_r, A; destruct o; reflexivity).
    pose proof H as H0. apply step_inv in H; try assumption. remember (w_st w') as sw eqn:Esw.
    destruct H as [o v s' H|r|e s' es H|p d c e s' es H|t|m s' es H|e b n p es s' H1 H2 H3|a e H1 H2|a e s' es H1 H|e H1 H2|e s' es H1 H];
      unfold new_session_entry in Hn; cbn [fst snd] in Hn.
    + destruct o; cbn [simple] in H; try discriminate; try (exfalso; apply Hn; exact I);
        repeat match type of H with context [if ?b then _ else _] => destruct b end;
        injection H as <- <-; (apply LK_no; [exact Hdf|unfold ses; rewrite <- Esw; reflexivity..]).
    + exfalso. apply Hn. exact I.
    + destruct B as (_ & B & _); [right; reflexivity|]. apply LK_no; [exact Hdf|unfold ses; rewrite <- Esw, B; reflexivity..].
    + destruct B as (_ & B & _); [left; reflexivity|]. apply LK_no; [exact Hdf|unfold ses; rewrite <- Esw, B; reflexivity..].
    + apply LK_no; [exact Hdf|unfold ses; rewrite <- Esw; reflexivity..].
    + destruct (recv_dec w m) as [R|R].
      * destruct (joining w) eqn:J; [|apply (LK_rx _ _ _ _ _ _ m); auto].
        destruct (join_outcome E w m _ _ w' HE HI H0 R J) as [r vw X1 X2 _ _ _ X3 X4 K|rg vw X1 X2 X3 X4 X5 X6].
        -- destruct K as (_ & _ & _ & K & _). apply LK_no; [exact Hdf|rewrite K; reflexivity..].
        -- exfalso. apply Hn. eapply accepts_of_cb. exact X3.
      * destruct (norx_step E w m _ _ w' HE HI H0 R). apply LK_no; [exact Hdf|rewrite nr_ses; reflexivity..].
    + apply LK_no; [exact Hdf|unfold ses; rewrite <- Esw, H1; reflexivity..].
    + apply LK_no; [exact Hdf|unfold ses; rewrite <- Esw; reflexivity..].
    + destruct B as (_ & B & _); [left; reflexivity|]. apply LK_no; [exact Hdf|unfold ses; rewrite <- Esw, B; reflexivity..].
    + apply LK_no; [exact Hdf|unfold ses; rewrite <- Esw; reflexivity..].
    + destruct B as (_ & B & _); [left; reflexivity|]. apply LK_no; [exact Hdf|unfold ses; rewrite <- Esw, B; reflexivity..].
Qed.

Lemma data_ack E w m v es w' : env_ok E -> Inv (w_st w) -> step E w (OIrq m) = Some (v, es, w') ->
  receives w m -> joining w = false ->
  ack_required (ses w') = ack_required (ses w) || fr_confirmedb (rx_data (received E w)).
Proof.
  intros HE HI H Hr Hj. destruct (data_outcome E w m v es w' HE HI H Hr Hj) as [r t vw _ _ _ _ _ (_ & _ & _ & K & _)|]; [|assumption].
  rewrite K. reflexivity.
Qed.
Lemma data_cnt E w m v es w' : env_ok E -> Inv (w_st w) -> step E w (OIrq m) = Some (v, es, w') ->
  receives w m -> joining w = false ->
  f_cnt_down (ses w') = f_cnt_down (ses w) \/
  exists f16, 0 <= f16 < 65536 /\ new_cnt (f_cnt_down (ses w)) f16 = Some (f_cnt_down (ses w')).
Proof.
  intros HE HI H Hr Hj. destruct (data_outcome E w m v es w' HE HI H Hr Hj) as [r t vw _ _ _ _ _ (_ & _ & _ & K & _)|r c t vw H12 _ _ _ Hc _ _ _ Hd _ _ _].
  - left. rewrite K. reflexivity.
  - right. exists (fr_cnt16 (rx_data (received E w))). rewrite Hd. split; [|exact Hc].
    rewrite fr_cnt16_d by (unfold len; lia). apply g16_range. apply (ok_pkt_byte E HE).
Qed.

(** along an execution without a new session *)
Lemma exec_cnt E w ops tr w' : env_ok E -> Inv (w_st w) -> Forall op_wf ops -> exec E w ops tr w' ->
  Forall (fun t => ~ new_session_entry t) tr ->
  0 < f_cnt_down (ses w) -> f_cnt_down (ses w) + 131072 * Z.of_nat (length tr) <= 4294967296 ->
  f_cnt_down (ses w) <= f_cnt_down (ses w') <= f_cnt_down (ses w) + 131072 * Z.of_nat (length tr).
Proof.
  intros HE HI Hw Hx. induction Hx as [w|w o ops v es w1 tr w2 H Hx IH]; intros Hn Hp Hb.
  { cbn [length]. lia. }
  pose proof (Forall_inv Hw) as Hw1. pose proof (Forall_inv_tail Hw) as Hw2. pose proof (Forall_inv Hn) as Hn1. pose proof (Forall_inv_tail Hn) as Hn2.
  pose proof (step_Inv E w _ _ _ _ HE HI Hw1 H) as HI1.
  assert (L : Z.of_nat (length ((o, v, es) :: tr)) = 1 + Z.of_nat (length tr)) by (cbn [length]; lia). rewrite L in *.
  assert (S1 : f_cnt_down (ses w) <= f_cnt_down (ses w1) <= f_cnt_down (ses w) + 131072).
  { destruct (step_link E w o v es w1 HE HI Hw1 H Hn1) as [m -> R J _|f _ _ Q _|_ Q _]; [|lia..].
    destruct (data_cnt E w m _ _ w1 HE HI H R J) as [Q|(f16 & Hf & Q)]; [lia|].
    pose proof (new_cnt_up _ _ _ Hp ltac:(lia) Hf Q). lia. }
  specialize (IH HI1 Hw2 Hn2 ltac:(lia) ltac:(lia)). lia.
Qed.

Lemma exec_ack E w ops tr w' : env_ok E -> Inv (w_st w) -> Forall op_wf ops -> exec E w ops tr w' ->
  Forall (fun t => ~ new_session_entry t) tr -> data_frames tr = [] ->
  (ack_required (ses w') = true <-> ack_required (ses w) = true \/ confirmed_seen E w ops tr).
Proof.
  intros HE HI Hw Hx. induction Hx as [w|w o ops v es w1 tr w2 H Hx IH]; intros Hn Hd.
  { split; [auto|]. intros [?|(o1 & t1 & wa & m & es & wb & o2 & t2 & A & _)]; [assumption|]. destruct o1; discriminate. }
  pose proof (Forall_inv Hw) as Hw1. pose proof (Forall_inv_tail Hw) as Hw2. pose proof (Forall_inv Hn) as Hn1. pose proof (Forall_inv_tail Hn) as Hn2.
  pose proof (step_Inv E w _ _ _ _ HE HI Hw1 H) as HI1.
  unfold data_frames in Hd. cbn [flat_map fst snd] in Hd. apply app_eq_nil in Hd. destruct Hd as [Hd1 Hd2].
  rewrite (IH HI1 Hw2 Hn2 Hd2). clear IH.
  assert (S1 : ack_required (ses w1) = true <-> ack_required (ses w) = true \/
    exists m, o = OIrq m /\ v = VUnit /\ receives w m /\ joining w = false /\ fr_confirmedb (rx_data (received E w)) = true).
  { destruct (recv_case w o) as [(m & -> & R)|R].
    - destruct (joining w) eqn:J.
      + destruct (step_link E w _ v es w1 HE HI Hw1 H Hn1) as [m' _ _ J' _|f Q _ _ _|_ _ Q].
        * congruence.
        * unfold data_frames in Q. cbn [flat_map fst snd] in Q. rewrite app_nil_r, Hd1 in Q. discriminate.
        * rewrite Q. split; [auto|]. intros [?|(m' & _ & _ & _ & J' & _)]; [assumption|congruence].
      + rewrite (data_ack E w m _ _ w1 HE HI H R J). rewrite orb_true_iff. split; intros [?|Q]; auto.
        * right. exists m. destruct (step_irq E w m v es w1 HE HI H) as [-> _]. auto.
        * destruct Q as (m' & _ & _ & _ & _ & Q). auto.
    - destruct (step_link E w _ v es w1 HE HI Hw1 H Hn1) as [m' Q R' _ _|f Q _ _ _|_ _ Q].
      + exfalso. exact (R m' Q R').
      + unfold data_frames in Q. cbn [flat_map fst snd] in Q. rewrite app_nil_r, Hd1 in Q. discriminate.
      + rewrite Q. split; [auto|]. intros [?|(m' & Q' & _ & R' & _)]; [assumption|]. exfalso. exact (R m' Q' R'). }
  rewrite S1. split.
  - intros [[?|(m & -> & -> & R & J & C)]|(o1 & t1 & wa & m & es' & wb & o2 & t2 & -> & -> & X & Y & Q)]; [auto|right..].
    + exists [], [], w, m, es, w1, ops, tr. repeat (split; [reflexivity|]). split; [constructor|]. auto.
    + exists (o :: o1), ((o, v, es) :: t1), wa, m, es', wb, o2, t2. repeat (split; [reflexivity|]).
      split; [econstructor; eassumption|]. auto.
  - intros [?|(o1 & t1 & wa & m & es' & wb & o2 & t2 & A & B & X & Y & R & J & C)]; [auto|].
    destruct X as [wa|wa o' o1' v' es1 w1' t1' wa' X1 X2].
    + cbn [app] in A, B. injection A as -> ->. injection B as -> -> ->. left. right. exists m. auto.
    + cbn [app] in A, B. injection A as -> ->. injection B as -> -> ->. assert (w1' = w1) by congruence. subst w1'. right.
      exists o1', t1', wa', m, es', wb, o2, t2. auto 8.
Qed.

Lemma step_nocb E w o v es w' : env_ok E -> Inv (w_st w) -> op_wf o -> step E w o = Some (v, es, w') ->
  (forall m, o <> OIrq m) -> callbacks es = [].
Proof.
  intros HE HI Hw H Hn. apply step_inv in H; try assumption. remember (w_st w') as sw eqn:Esw. clear Esw.
  destruct H as [o v s' H|r|e s' es H|p d c e s' es H|t|m s' es H|e b n p es s' H1 H2 H3|a e H1 H2|a e s' es H1 H|e H1 H2|e s' es H1 H];
    try reflexivity.
  - inv_ok H; [reflexivity|apply quiet_callbacks, rand_quiet|]. apply join_obs.
  - destruct (send_joined _ _ _ _ _ _ _ _ _ H) as [A B]. exact B.
  - apply timer_evs_cb.
  - exfalso. exact (Hn m eq_refl).
  - apply cs_joined. exact H3.
  - destruct (send_joined _ _ _ _ _ _ _ _ _ H) as [A B]. exact B.
  - destruct (send_joined _ _ _ _ _ _ _ _ _ H) as [A B]. exact B.
Qed.

Lemma nocb_accepts es : callbacks es = [] -> ~ accepts_join es.
Proof.
  intros H [v D]. induction es as [|e es IH]; [contradiction|]. destruct D as [->|D]; [discriminate|].
  destruct e; try discriminate; auto.
Qed.
Lemma accepts_dec es : accepts_join es \/ ~ accepts_join es.
Proof.
  destruct (accepts_join_b es) eqn:Q.
  - left. unfold accepts_join_b in Q. apply existsb_exists in Q. destruct Q as ([[r t] vw] & Q1 & Q2).
    destruct r; try discriminate. exists vw. replace t with MTYPE_JOIN_ACCEPT in Q1 by lia. clear Q2.
    induction es as [|e es IH]; [contradiction|]. destruct e; cbn [callbacks] in Q1; try (right; apply IH; exact Q1).
    destruct Q1 as [Q1|Q1]; [left; congruence|right; apply IH; exact Q1].
  - right. intros [vw D]. rewrite <- not_true_iff_false in Q. apply Q. apply existsb_exists.
    exists (ERR_NO, MTYPE_JOIN_ACCEPT, vw). split; [|reflexivity]. clear Q.
    induction es as [|e es IH]; [contradiction|]. destruct D as [->|D]; [left; reflexivity|].
    destruct e; try (apply IH; exact D). right. apply IH. exact D.
Qed.
Lemma clean_start E w o v es w' : env_ok E -> reachable E w -> op_wf o -> step E w o = Some (v, es, w') ->
  data_frames [(o, v, es)] <> [] \/ new_session_entry (o, v, es) -> ack_required (ses w') = false.
Proof.
  intros HE Hr Hw H Hs. pose proof (reach_Inv E w HE Hr) as HI.
  assert (D : new_session_entry (o, v, es) \/ ~ new_session_entry (o, v, es)).
  { unfold new_session_entry. cbn [fst snd]. destruct (accepts_dec es) as [X|X]; destruct o; auto. }
  destruct D as [D|D].
  - unfold new_session_entry in D. cbn [fst snd] in D.
    assert (G : forall m, o = OIrq m -> accepts_join es -> ack_required (ses w') = false).
    { intros m -> [vv Hin].
      assert (Hcb : In (ERR_NO, MTYPE_JOIN_ACCEPT, vv) (callbacks es)).
      { clear - Hin. induction es as [|e es IH]; [contradiction|]. destruct Hin as [->|Hin]; [left; reflexivity|].
        destruct e; try (apply IH; exact Hin). right. apply IH. exact Hin. }
      destruct (recv_dec w m) as [R|R].
      2: { destruct (norx_step E w m v es w' HE HI H R). destruct nr_cb as [Q|(e & Q1 & Q2)].
           - rewrite Q in Hcb. contradiction.
           - rewrite Q2 in Hcb. destruct Hcb as [Hcb|[]]. congruence. }
      destruct (joining w) eqn:J.
      - destruct (join_outcome E w m v es w' HE HI H R J) as [r vw A B _ _ _ C _ _|rg vw A B C _ _ _].
        + rewrite C in Hcb. destruct Hcb as [Hcb|[]]. congruence.
        + destruct (join_ok_case E w m v es w' HE Hr Hw R J H A) as (_ & _ & _ & _ & _ & Hi). apply Hi.
      - pose proof (data_not_join E w m v es w' HE HI H R J) as N. exfalso.
        unfold accepts_join_b in N. rewrite <- not_true_iff_false in N. apply N. apply existsb_exists.
        eexists. split; [exact Hcb|]. reflexivity. }
    destruct o; try (exact (G _ eq_refl D)); try (exfalso; apply (step_nocb E w _ _ _ _ HE HI Hw) in H; [|intros; discriminate]; exact (nocb_accepts es H D)).
    + apply step_inv in H; try assumption. unfold ses. remember (w_st w') as sw. clear Heqsw. inversion H; subst; [|reflexivity]. discriminate.
    + apply step_inv in H; try assumption. unfold ses. remember (w_st w') as sw. clear Heqsw. inversion H; subst.
      match goal with X : simple _ _ = _ |- _ => cbn [simple] in X; injection X as <- <- end. reflexivity.
  - destruct Hs as [Hs|Hs]; [|contradiction].
    destruct (step_link E w o v es w' HE HI Hw H D) as [m _ _ _ Q|f Q _ _ X|Q _ _]; congruence.
Qed.

(** for the concrete cases *)
Definition recvb (w : world) (m : Z) : bool :=
  match uw_state (stk w) with RX1 | RX2 => true | _ => false end &&
  negb (Z.testbit m 0) && Z.testbit m 1 && negb (Z.testbit m 3).
Lemma recvb_ok w m : recvb w m = true -> receives w m.
Proof.
  unfold recvb, receives. destruct (uw_state (stk w)), (Z.testbit m 0), (Z.testbit m 1), (Z.testbit m 3); try discriminate; auto.
Qed.
Definition cb_is (r : err) (es : list ev) : bool := match callbacks es with [(e, _, _)] => err_eqb r e | _ => false end.
Lemma cb_is_ok r es : cb_is r es = true -> exists t view, callbacks es = [(r, t, view)].
Proof.
  unfold cb_is. destruct (callbacks es) as [|[[e t] vw] [|]]; try discriminate. unfold err_eqb.
  destruct (err_eq_dec r e) as [->|]; [eauto|discriminate].
Qed.
Ltac ands F := repeat match type of F with (?a && ?b) = true => apply andb_prop in F; destruct F as [F ?] end.
Definition nonewb (t : entry) : bool :=
  match t with (OInit _, _, _) | (OSetSession _ _ _ _ _, _, _) => false | (_, _, es) => negb (accepts_join_b es) end.
Lemma nonewb_ok tr : forallb nonewb tr = true -> Forall (fun t => ~ new_session_entry t) tr.
Proof.
  intro H. apply Forall_forall. intros [[o v] es] Hin. rewrite forallb_forall in H. specialize (H _ Hin). clear Hin.
  assert (G : negb (accepts_join_b es) = true -> ~ accepts_join es).
  { clear. intros H [vw D]. apply negb_true_iff in H. rewrite <- not_true_iff_false in H. apply H. apply existsb_exists.
    exists (ERR_NO, MTYPE_JOIN_ACCEPT, vw). split; [|reflexivity]. clear H.
    induction es as [|e es IH]; [contradiction|]. destruct D as [->|D]; [left; reflexivity|].
    destruct e; try (apply IH; exact D). right. apply IH. exact D. }
  unfold new_session_entry. cbn [fst snd]. destruct o; cbn [nonewb] in H; try discriminate; exact (G H).
Qed.
