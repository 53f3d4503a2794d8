(** Prop_Join.v -- joining: C26 - C29. *)
From Verif Require Import LJoin2 Demo.

(** ** C26 Join-accept establishes the server's session *)

(** [tr] is everything that happened since power-on. The radio delivers the
    frame a conforming server builds for the AppKey last given: [dec] is the AES
    decryption the server uses for encrypting. *)
Theorem C26_join_accept : forall E dec ops tr w m an ni addr dl rxd cflist,
  env_ok E -> aes_inverse E dec -> Forall op_wf ops -> exec E world0 ops tr w ->
  op_wf (OIrq m) -> receives w m -> joining w = true ->
  0 <= an < 2 ^ 24 -> 0 <= ni < 2 ^ 24 -> is_u32 addr -> is_u8 dl -> is_u8 rxd ->
  cflist = [] \/ (length cflist = 16%nat /\ bytes_ok cflist) ->
  rx_data (received E w) = join_accept_frame (e_cmac E) dec (last_app_key tr) an ni addr dl rxd cflist ->
  exists request, last_join_request tr = Some request /\
    (e_strict_shl E = false -> exists v es w', step E w (OIrq m) = Some (v, es, w')) /\
    forall v es w', step E w (OIrq m) = Some (v, es, w') ->
      (exists view, callbacks es = [(ERR_NO, MTYPE_JOIN_ACCEPT, view)]) /\
      step E w' OIsJoined = Some (VBool true, [], w') /\
      installed E w w' (last_app_key tr) an ni addr dl rxd cflist (request_nonce request).
Proof.
  intros E dec ops tr w m an ni addr dl rxd cf HE HA Hops Hx Hw Hrx Hj Han Hni Haddr Hdl Hrd Hcf Hd.
  assert (Hr : reachable E w) by (exists ops, tr; auto). pose proof (reach_Inv E w HE Hr) as HI.
  destruct (exec_join_nonce E ops tr w HE Hops Hx) as [J1 J2].
  destruct (last_join_request tr) as [req|] eqn:Ereq; [|exfalso; apply (J1 Hj); reflexivity].
  exists req. split; [reflexivity|]. specialize (J2 req eq_refl). split.
  { intro Hns. destruct (rx_total E w m HE Hns HI Hrx) as (es & w' & Hs). eauto. }
  intros v es w' H. rewrite <- (exec_app_key E ops tr w HE Hops Hx) in *.
  destruct (ja_frame_clear E dec (app_key w) an ni addr dl rxd cf HE HA Hdl Hrd Hcf) as (F1 & F2 & F3).
  rewrite <- Hd in F1, F2, F3. set (body := join_accept_body an ni addr dl rxd cf) in *.
  assert (Hl : len (rx_data (received E w)) = 17 \/ len (rx_data (received E w)) = 33) by (destruct F1 as [[? _]|[? _]]; auto).
  assert (Hv : ja_valid E (app_key w) (rx_data (received E w))).
  { apply ja_valid_dec; [exact Hl|]. split; [exact F2|]. rewrite F3. unfold ja_mic, ja_msg.
    set (mic := firstn 4 (e_cmac E (app_key w) ([32] ++ body))).
    assert (Hm : length mic = 4%nat) by (unfold mic; rewrite firstn_length, (ok_cmac_len E HE); reflexivity).
    set (pl := ([32] ++ body : list Z)). rewrite app_assoc. change ([32] ++ body) with pl.
    replace (length (pl ++ mic) - 4)%nat with (length pl) by (rewrite (app_length _ mic); lia).
    rewrite skipn_exact by reflexivity. rewrite firstn_app, Nat.sub_diag, firstn_O, app_nil_r, firstn_all. reflexivity. }
  destruct (join_ok_case E w m v es w' HE Hr Hw Hrx Hj H Hv) as (_ & _ & LD & _ & Hcb & Hin).
  rewrite F3 in Hin, LD.
  destruct (ja_fields an ni addr dl rxd cf (firstn 4 (e_cmac E (app_key w) ([32] ++ body))) Han Hni Haddr)
    as (G1 & G2 & G3 & G4 & G5 & G6 & _). fold body in G1, G2, G3, G4, G5, G6.
  rewrite G1, G2, G3, G4, G5, LD, J2 in Hin.
  split; [exact Hcb|]. split.
  - pose proof (step_Inv E w _ _ _ _ HE HI Hw H) as HI'.
    rewrite (simple_step E w' OIsJoined _ _ HI' I eq_refl). destruct w' as [s' h']. cbn [w_st w_hist].  
    f_equal. f_equal. f_equal. f_equal. exact (in_joined _ _ _ _ _ _ _ _ _ _ _ Hin).
  - destruct F1 as [[F1 Fc]|[F1 Fc]]; rewrite F1 in Hin; cbn [Z.eqb Pos.eqb] in Hin.
    + subst cf. exact Hin.
    + rewrite G6 in Hin by exact Fc. exact Hin.
Qed.
Print Assumptions C26_join_accept.

(** Whatever is accepted while joining is authenticated by the AppKey, and what
    is installed are the fields of the decrypted frame. *)
Theorem C26_accepted_fields : forall E w m v es w' view,
  env_ok E -> reachable E w -> op_wf (OIrq m) -> receives w m -> joining w = true ->
  step E w (OIrq m) = Some (v, es, w') -> callbacks es = [(ERR_NO, MTYPE_JOIN_ACCEPT, view)] ->
  ja_valid E (app_key w) (rx_data (received E w)) /\
  exists an ni addr dl rxd cflist mic,
    ja_clear E (app_key w) (rx_data (received E w)) = [MHDR_JOIN_ACC] ++ join_accept_body an ni addr dl rxd cflist ++ mic /\
    length mic = 4%nat /\ (cflist = [] \/ length cflist = 16%nat) /\
    installed E w w' (app_key w) an ni addr dl rxd cflist (uw_dev_nonce (stk w)).
Proof.
  intros E w m v es w' view HE Hr Hw Hrx Hj H Hcb. pose proof (reach_Inv E w HE Hr) as HI.
  assert (Hv : ja_valid E (app_key w) (rx_data (received E w))).
  { destruct (join_outcome E w m v es w' HE HI H Hrx Hj) as [r vw A B _ _ _ C D K|rg vw A B C D E' F]; [|exact A].
    rewrite C in Hcb. injection Hcb as -> _ _. congruence. }
  split; [exact Hv|].
  destruct (join_ok_case E w m v es w' HE Hr Hw Hrx Hj H Hv) as (Hl & HD & LD & Hb & _ & Hin).
  set (D := ja_dec E (app_key w) (rx_data (received E w))) in *. rewrite HD.
  exists (g24 D 1), (g24 D 4), (g32 D 7), (get D 11), (get D 12), (if len D =? 33 then sub D 13 16 else []),
    (skipn (length D - 4) D).
  assert (H0 : get D 0 = 32).
  { destruct Hv as (_ & A & _). rewrite at_get in A. change (Z.of_nat 0) with 0 in A. unfold MHDR_JOIN_ACC in A. rewrite <- A.
    unfold D, ja_dec. destruct (rx_data (received E w)) as [|x l] eqn:Ed; [unfold len in Hl; cbn in Hl; lia|reflexivity]. }
  clearbody D. clear H HD. split; [|split; [|split; [|exact Hin]]].
  - apply ja_split; [exact Hb|exact H0|]. rewrite LD. exact Hl.
  - rewrite skipn_length. unfold len in *. lia.
  - destruct (Z.eqb_spec (len D) 33) as [L|L]; [right|left; reflexivity].
    unfold sub. rewrite firstn_length, skipn_length. unfold len in L. change (Z.to_nat 13) with 13%nat. change (Z.to_nat 16) with 16%nat. lia.
Qed.
Print Assumptions C26_accepted_fields.

(** the session keys are those of the DevNonce in the join-request last sent *)
Theorem C26_nonce_sent : forall E ops tr w,
  env_ok E -> Forall op_wf ops -> exec E world0 ops tr w ->
  app_key w = last_app_key tr /\
  (joining w = true -> exists request, last_join_request tr = Some request /\ uw_dev_nonce (stk w) = request_nonce request).
Proof.
  intros E ops tr w HE Ho Hx. split; [eapply exec_app_key; eauto|]. intro Hj.
  destruct (exec_join_nonce E ops tr w HE Ho Hx) as [J1 J2].
  destruct (last_join_request tr) as [r|]; [|exfalso; apply (J1 Hj); reflexivity]. exists r. auto.
Qed.
Print Assumptions C26_nonce_sent.

Lemma toy_inverse rands pkts : aes_inverse (demo rands pkts) toy_dec.
Proof.
  intros k b Hl Hb. split; [reflexivity|]. cbn [demo e_aes].
  assert (G : forall j, (j < 16)%nat -> byte_of (toy_dec k b) j = (byte_of b j - byte_of k j - 17 * Z.of_nat j - 3) mod 256).
  { intros j Hj. unfold toy_dec, byte_of at 1. set (f := fun i => _).
    rewrite nth_indep with (d' := f 0%nat) by (rewrite map_length, seq_length; exact Hj).
    rewrite map_nth, seq_nth by exact Hj. reflexivity. }
  apply (nth_ext _ _ 0 0); [unfold toy_aes; rewrite map_length, seq_length; symmetry; exact Hl|].
  intros n Hn. unfold toy_aes in Hn. rewrite map_length, seq_length in Hn. unfold toy_aes. set (f := fun i => _).
  rewrite nth_indep with (d' := f 0%nat) by (rewrite map_length, seq_length; exact Hn).
  rewrite map_nth, seq_nth by exact Hn. unfold f. cbn [Nat.add]. rewrite G by exact Hn.
  rewrite <- !Z.add_assoc. rewrite Z.add_mod_idemp_l by lia.
  replace (byte_of b n - byte_of k n - 17 * Z.of_nat n - 3 + (byte_of k n + (17 * Z.of_nat n + 3))) with (byte_of b n) by lia.
  apply Z.mod_small. unfold byte_of. apply Forall_nth; [exact Hb|]. rewrite Hl. exact Hn.
Qed.

(** RU864, CFList with a new channel, a removed one and an illegal one; the
    hypotheses of C26_join_accept are met and the join-request carries nonce 4660 *)
Definition cf_demo : list Z := [24; 79; 132; 0; 0; 0; 1; 2; 3; 232; 86; 132; 0; 0; 0; 0].
Definition ja_demo : list Z := join_accept_frame toy_cmac toy_dec k3 1193046 7 637603841 35 5 cf_demo.
Definition join_ops (r : region) : list op := otaa r ++ [OJoin; OIrq 4].
Example C26_join_case : case_of (demo [] [(ja_demo, 5)]) (join_ops RU864) (OIrq 2)
  (fun w v es w' =>
     list_eqb (rx_data (received (demo [] [(ja_demo, 5)]) w)) ja_demo && joining w && negb (is_joined (ses w)) &&
     match callbacks es with [(ERR_NO, 1, _)] => true | _ => false end &&
     is_joined (ses w') && (dev_addr (ses w') =? 637603841) && (uw_rx1_offset (stk w') =? 2) && (uw_rx2_dr (stk w') =? 3) &&
     (default_rx1_delay (stk w') =? 5000) && (chan_freq w' 2 =? 867100000) && chan_on w' 2 && negb (chan_on w' 3) &&
     negb (chan_on w' 4) && (chan_freq w' 5 =? 867300000) && chan_on w' 5).
Proof. show_case. Qed.
Example C26_join_17_case : case_of (demo [] [(join_accept_frame toy_cmac toy_dec k3 1 2 3 0 0 [], 5)]) (join_ops EU868 ++ [OTimer TIMER_RX1; OIrq 1]) (OIrq 2)
  (fun w v es w' => joining w && is_joined (ses w') && (dev_addr (ses w') =? 3) && (default_rx1_delay (stk w') =? 1000)).
Proof. show_case. Qed.

(** ** C27 Invalid join-accept is inert *)
Definition bad_join_code (d : list Z) : err :=
  if negb ((length d =? 17)%nat || (length d =? 33)%nat) then ERR_MSG_LEN
  else if negb (at_ d 0 =? MHDR_JOIN_ACC) then ERR_MSG_MHDR else ERR_MSG_MIC.
Theorem C27_invalid_inert : forall E w m v es w',
  env_ok E -> reachable E w -> op_wf (OIrq m) -> receives w m -> joining w = true ->
  step E w (OIrq m) = Some (v, es, w') -> ~ ja_valid E (app_key w) (rx_data (received E w)) ->
  (exists t view, callbacks es = [(bad_join_code (rx_data (received E w)), t, view)]) /\
  mac_calls es = [] /\ tx_frames es = [] /\
  kept w w' /\ is_joined (ses w') = is_joined (ses w) /\ idle w' /\ joining w' = false.
Proof.
  intros E w m v es w' HE Hr Hw Hrx Hj H Hv. pose proof (reach_Inv E w HE Hr) as HI.
  destruct (join_outcome E w m v es w' HE HI H Hrx Hj) as [r vw A B C1 C2 C3 C D K K2 K3|rg vw A B C D E' F]; [|contradiction].
  set (d := rx_data (received E w)) in *.
  split; [|split; [exact D|]].
  { do 2 eexists. rewrite C. f_equal. f_equal. f_equal. unfold bad_join_code.
    destruct (Nat.eqb_spec (length d) 17); destruct (Nat.eqb_spec (length d) 33); cbn [orb negb];
      [| | |apply C1; unfold len; lia];
      (destruct (Z.eqb_spec (at_ d 0) MHDR_JOIN_ACC); cbn [negb]; [apply C3|apply C2]; try assumption; unfold len; lia). }
  split; [|split; [exact K|split; [|split; assumption]]].
  - destruct (step_irq E w m v es w' HE HI H) as (_ & Hc).
    apply (irq_tx (relax E) m (w_hist w) (w_st w) (w_st w') es); auto. apply relax_ok; exact HE.
  - destruct K as (_ & _ & _ & -> & _). reflexivity.
Qed.
Print Assumptions C27_invalid_inert.

(** while the answer is awaited the device is not joined unless the application
    sets a session itself: no other event in a receive window changes the
    session, the channels or the queue *)
Theorem C27_no_frame_inert : forall E w m v es w',
  env_ok E -> reachable E w -> op_wf (OIrq m) -> ~ receives w m -> step E w (OIrq m) = Some (v, es, w') ->
  ses w' = ses w /\ table w' = table w /\ fopts w' = fopts w /\ s_adr (w_st w') = s_adr (w_st w) /\
  dev_w w' = dev_w w /\
  (callbacks es = [] \/ exists e, e <> ERR_NO /\ callbacks es = [(e, 0, no_view)]).
Proof.
  intros E w m v es w' HE Hr Hw Hn H. pose proof (reach_Inv E w HE Hr) as HI.
  destruct (norx_step E w m v es w' HE HI H Hn) as [A B C D F G G2 G3 K].
  assert (Hq : mac_buf (s_mac (w_st w')) = mac_buf (s_mac (w_st w)) /\ mac_buf_pos (s_mac (w_st w')) = mac_buf_pos (s_mac (w_st w))).
  { destruct F as [->|[_ ->]]; [auto|]. unfold tx_done_mac. destruct (mac_save_dev_time (s_mac (w_st w))), (mac_cbs (s_mac (w_st w))) as [c|]; auto; destruct (has_get_device_time c); auto. }
  destruct Hq as [Q1 Q2].
  split; [exact A|]. split; [unfold table, chan_table; rewrite B; reflexivity|].
  split; [unfold fopts; rewrite Q1, Q2; reflexivity|]. split; [exact C|]. split; [|exact G].
  unfold dev_w, dev_of, chan_table. rewrite Q1, Q2, B. unfold ses in A. rewrite A. unfold stk in K.
  destruct (s_stk (w_st w)), (s_stk (w_st w')). injection K. intros. subst. reflexivity.
Qed.
Print Assumptions C27_no_frame_inert.

Definition flip_last (l : list Z) : list Z := firstn (length l - 1) l ++ [(last l 0 + 1) mod 256].
Example C27_mic_case : case_of (demo [] [(flip_last ja_demo, 5)]) (join_ops RU864) (OIrq 2)
  (fun w v es w' => joining w && match callbacks es with [(ERR_MSG_MIC, _, _)] => true | _ => false end && negb (is_joined (ses w'))).
Proof. show_case. Qed.
Example C27_len_case : case_of (demo [] [(firstn 32 ja_demo, 5)]) (join_ops RU864) (OIrq 2)
  (fun w v es w' => joining w && match callbacks es with [(ERR_MSG_LEN, _, _)] => true | _ => false end && negb (is_joined (ses w'))).
Proof. show_case. Qed.
Example C27_mhdr_case : case_of (demo [] [(33 :: skipn 1 ja_demo, 5)]) (join_ops RU864) (OIrq 2)
  (fun w v es w' => joining w && match callbacks es with [(ERR_MSG_MHDR, _, _)] => true | _ => false end && negb (is_joined (ses w'))).
Proof. show_case. Qed.

(** ** C28 uwan_is_joined reflects the activation history *)
Theorem C28_is_joined : forall E ops tr w,
  env_ok E -> Forall op_wf ops -> exec E world0 ops tr w ->
  step E w OIsJoined = Some (VBool (joined_after tr), [], w).
Proof.
  intros E ops tr w HE Ho Hx. assert (Hr : reachable E w) by (exists ops, tr; auto).
  pose proof (reach_Inv E w HE Hr) as HI. rewrite (simple_step E w OIsJoined _ _ HI I eq_refl).
  destruct w as [s h]. cbn [w_st w_hist]. f_equal. f_equal. f_equal. f_equal.
  exact (exec_joined E world0 ops tr _ HE (reach_Inv E world0 HE (ex_intro _ [] (ex_intro _ [] (conj (Forall_nil _) (exec_nil _ _))))) Ho Hx).
Qed.
Print Assumptions C28_is_joined.

Example C28_history_case : run_of (demo [] [(ja_demo, 5)]) [] (join_ops RU864 ++ [OIrq 2; OJoin])
  (fun w tr w' => negb (joined_after tr) && joined_after (removelast tr) && negb (joined_after (removelast (removelast tr)))).
Proof. show_run. Qed.

(** ** C29 CFList handling *)
Theorem C29_cflist : forall E w m v es w' view r,
  env_ok E -> reachable E w -> op_wf (OIrq m) -> receives w m -> joining w = true ->
  step E w (OIrq m) = Some (v, es, w') -> callbacks es = [(ERR_NO, MTYPE_JOIN_ACCEPT, view)] ->
  length (rx_data (received E w)) = 33%nat -> uw_region (stk w) = Some r ->
  let cflist := slice (ja_clear E (app_key w) (rx_data (received E w))) 13 16 in
  let first := match r with EU868 => 3 | RU864 => 2 end in
  forall i, 0 <= i < 16 ->
  let same := chan_freq w' i = chan_freq w i /\ chan_on w' i = chan_on w i in
  if negb (at_ cflist 15 =? 0) then same
  else if (first <=? i) && (i <? first + 5) then
    let f := 100 * unle (slice cflist (Z.to_nat (3 * (i - first))) 3) in
    if f =? 0 then chan_freq w' i = chan_freq w i /\ chan_on w' i = false
    else if (860000000 <=? f) && (f <=? 870000000) then chan_freq w' i = f /\ chan_on w' i = true
    else same
  else same.
Proof.
  intros E w m v es w' view r HE Hr Hw Hrx Hj H Hcb H33 Hrg cf first i Hi same.
  destruct (C26_accepted_fields E w m v es w' view HE Hr Hw Hrx Hj H Hcb) as (Hv & _).
  destruct (join_ok_case E w m v es w' HE Hr Hw Hrx Hj H Hv) as (Hl & HD & LD & Hb & _ & Hin).
  unfold cf. rewrite HD. set (D := ja_dec E (app_key w) (rx_data (received E w))) in *.
  assert (L33 : len D = 33) by (rewrite LD; unfold len; rewrite H33; reflexivity).
  destruct (in_table _ _ _ _ _ _ _ _ _ _ _ Hin) as (r' & Hr' & Ht). rewrite Hrg in Hr'. injection Hr' as <-.
  rewrite L33 in Ht. cbn [Z.eqb Pos.eqb] in Ht. change (sub D 13 16) with (slice D 13 16) in Ht.
  set (fl := slice D 13 16) in *.
  assert (Hfl : length fl = 16%nat) by (unfold fl, slice; rewrite firstn_length, skipn_length; unfold len in L33; lia).
  assert (Ht' : table w' = cflist_apply r fl (table w)) by (destruct fl; [discriminate|exact Ht]). clear Ht.
  assert (He : (chan_freq w' i, chan_on w' i) = nth (Z.to_nat i) (cflist_apply r fl (table w)) (0, false))
    by (rewrite <- Ht'; symmetry; apply table_nth; exact Hi).
  unfold cflist_apply in He. destruct (at_ fl 15 =? 0); cbn [negb].
  2: { rewrite table_nth in He by exact Hi. injection He as He1 He2; subst same; rewrite ?He1, ?He2; split; reflexivity. }
  assert (Hn : length (region_defaults r) = Z.to_nat first) by (unfold first; destruct r; reflexivity).
  rewrite Hn, cf_fold_nth, table_nth in He by (rewrite ?table_length; unfold first; destruct r; cbn; lia || exact Hi).
  assert (Hc : ((Z.to_nat first + 0 <=? Z.to_nat i) && (Z.to_nat i <? Z.to_nat first + 0 + 5))%nat = ((first <=? i) && (i <? first + 5))).
  { assert (0 <= first) by (unfold first; destruct r; lia).
    destruct (Nat.leb_spec (Z.to_nat first + 0) (Z.to_nat i)); destruct (Nat.ltb_spec (Z.to_nat i) (Z.to_nat first + 0 + 5));
    destruct (Z.leb_spec first i); destruct (Z.ltb_spec i (first + 5)); try reflexivity; lia. }
  rewrite Hc in He. destruct ((first <=? i) && (i <? first + 5)) eqn:Ein.
  2: { injection He as He1 He2; subst same; rewrite ?He1, ?He2; split; reflexivity. }
  assert (Hk : (3 * (Z.to_nat i - Z.to_nat first))%nat = Z.to_nat (3 * (i - first))).
  { assert (0 <= first) by (unfold first; destruct r; lia). lia. }
  unfold cf_freq_hz in He. rewrite Hk in He. set (f := 100 * unle (slice fl (Z.to_nat (3 * (i - first))) 3)) in *.
  unfold cf_entry, legal_freq in He. cbv zeta. destruct (f =? 0); [injection He as He1 He2; subst same; rewrite ?He1, ?He2; split; reflexivity|].
  destruct ((860000000 <=? f) && (f <=? 870000000)); injection He as He1 He2; subst same; rewrite ?He1, ?He2; split; reflexivity.
Qed.
Print Assumptions C29_cflist.

(** a join-accept without CFList leaves the channel table alone *)
Theorem C29_no_cflist : forall E w m v es w' view,
  env_ok E -> reachable E w -> op_wf (OIrq m) -> receives w m -> joining w = true ->
  step E w (OIrq m) = Some (v, es, w') -> callbacks es = [(ERR_NO, MTYPE_JOIN_ACCEPT, view)] ->
  length (rx_data (received E w)) <> 33%nat -> table w' = table w.
Proof.
  intros E w m v es w' view HE Hr Hw Hrx Hj H Hcb H33.
  destruct (C26_accepted_fields E w m v es w' view HE Hr Hw Hrx Hj H Hcb) as (Hv & _).
  destruct (join_ok_case E w m v es w' HE Hr Hw Hrx Hj H Hv) as (Hl & HD & LD & Hb & _ & Hin).
  destruct (in_table _ _ _ _ _ _ _ _ _ _ _ Hin) as (r' & Hr' & Ht). rewrite LD in Ht.
  destruct (Z.eqb_spec (len (rx_data (received E w))) 33); [unfold len in *; lia|exact Ht].
Qed.
Print Assumptions C29_no_cflist.

(** CFList type 1 is ignored *)
Example C29_type1_case :
  case_of (demo [] [(join_accept_frame toy_cmac toy_dec k3 1 2 3 0 0 (firstn 15 cf_demo ++ [1]), 5)]) (join_ops RU864) (OIrq 2)
  (fun w v es w' => is_joined (ses w') && negb (chan_on w' 2) && (chan_freq w' 2 =? chan_freq w 2)).
Proof. show_case. Qed.
(** channel 3 was in use and is given as 0: disabled, its frequency is kept *)
Example C29_disable_case :
  case_of (demo [] [(ja_demo, 5)]) (otaa RU864 ++ [OSetChannel 3 864100000; OJoin; OIrq 4]) (OIrq 2)
  (fun w v es w' => chan_on w 3 && negb (chan_on w' 3) && (chan_freq w' 3 =? 864100000)).
Proof. show_case. Qed.
