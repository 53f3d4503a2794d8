(** Prop_Conf.v -- what LoRaWAN 1.0.2 asks of the answers to MAC commands: C81 - C83. *)
From Verif Require Import SpecConf LCmd LClock Demo Prop_Down Prop_Mac.

(** ** C82 Every command is answered *)
Lemma answer_fits a d : len (v_queue d) + len a <= 15 ->
  answer a d = (Mk_dev (v_table d) (v_dr d) (v_power d) (v_nb d) (v_rx1_off d) (v_rx2_freq d) (v_rx2_dr d) (v_rx1_delay d) (v_queue d ++ a), true).
Proof. intro H. unfold answer. destruct (Z.leb_spec (len (v_queue d) + len a) 15); [reflexivity|lia]. Qed.
Ltac take1 := split; [reflexivity|]; split; [cbn; eexists; split; reflexivity|]; split; [reflexivity|].
Lemma exec_reply x h c d : len (v_queue d) + reply_size c <= 15 ->
  exists a d1 e, mac_exec x h c d = (d1, true, e) /\ reply c a /\ v_queue d1 = v_queue d ++ a /\
    has_channel (c, a) /\ conf d1 = mirror (x_nb x) (conf d) (c, a).
Proof.
  intro H. destruct c as [mg gw|dr pw mask cntl nb|mx|off dr fr| |i fr drr|del| | |sec frac]; cbn [mac_exec reply_size asks] in *.
  - exists [], d. eexists. split; [reflexivity|]. split; [reflexivity|]. split; [rewrite app_nil_r; reflexivity|split; [exact I|reflexivity]].
  - set (po := pw <? 8). set (dro := dr <? 6). set (mo := mask_mode cntl && mask_fits mask (v_table d)).
    exists [3; bits3 po dro mo]. do 2 eexists. split; [rewrite answer_fits; [reflexivity|]; destruct (po && dro && mo); cbn [v_queue]; exact H|].
    split; [cbn; eexists; split; reflexivity|]. cbn [v_queue].
    destruct po, dro, mo; (split; [reflexivity|]); (split; [exact I|]); reflexivity.
  - exists [4], (fst (answer [4] d)), []. rewrite answer_fits by exact H. take1. split; [exact I|reflexivity].
  - set (oo := off <? 6). set (dro := dr <? 6). set (fo := legal_freq fr).
    exists [5; bits3 oo dro fo]. do 2 eexists. split; [rewrite answer_fits; [reflexivity|]; destruct (oo && dro && fo); cbn [v_queue]; exact H|].
    split; [cbn; eexists; split; reflexivity|].
    destruct oo, dro, fo; (split; [reflexivity|]); (split; [exact I|]); reflexivity.
  - assert (G : forall b (ee : list ev), exists a d1 e, (answer [6; b; x_snr x mod 64] d, ee) = (d1, true, e) /\ reply DevStatusReq a /\ v_queue d1 = v_queue d ++ a /\ has_channel (DevStatusReq, a) /\ conf d1 = mirror (x_nb x) (conf d) (DevStatusReq, a)).
    { intros b ee. exists [6; b; x_snr x mod 64]. do 2 eexists. split; [rewrite answer_fits by exact H; reflexivity|].
      split; [exists [b; x_snr x mod 64]; split; reflexivity|]. split; [reflexivity|]. split; [exact I|reflexivity]. }
    destruct (x_cbs x) as [cb|]; [destruct (has_get_battery_level cb)|]; apply G.
  - set (fo := legal_freq fr). set (dro := drr =? 80). assert (Hi : (i <? 16) = true -> i < 16) by (intro Q; apply Z.ltb_lt in Q; exact Q). set (io := i <? 16) in *.
    exists [7; if fo && dro && negb io then 0 else bits3 false dro fo]. do 2 eexists.
    split; [rewrite answer_fits; [reflexivity|]; destruct (fo && dro && io); cbn [v_queue]; exact H|].
    split; [cbn; eexists; split; reflexivity|].
    destruct fo, dro, io; (split; [reflexivity|]); (split; [first [exact I|exact (Hi eq_refl)]|]); reflexivity.
  - exists [8]. do 2 eexists. split; [rewrite answer_fits by exact H; reflexivity|]. split; [cbn; eexists; split; reflexivity|]. split; [reflexivity|]. split; [exact I|reflexivity].
  - exists [], d, []. split; [reflexivity|]. split; [reflexivity|]. split; [rewrite app_nil_r; reflexivity|split; [exact I|reflexivity]].
  - exists [], d, []. split; [reflexivity|]. split; [reflexivity|]. split; [rewrite app_nil_r; reflexivity|split; [exact I|reflexivity]].
  - exists [], d. eexists. split; [reflexivity|]. split; [reflexivity|]. split; [rewrite app_nil_r; reflexivity|split; [exact I|reflexivity]].
Qed.
Lemma reply_len c a : reply c a -> len a = reply_size c.
Proof.
  unfold reply, reply_size. destruct (asks c) as [[cid n]|].
  - intros (p & -> & H). rewrite <- H. unfold len. cbn [length]. lia.
  - intros ->. reflexivity.
Qed.
Lemma run_reply x : forall cs h d, len (v_queue d) + reply_sizes cs <= 15 ->
  exists as_, Forall2 reply cs as_ /\ v_queue (fst (mac_run x h cs d)) = v_queue d ++ concat as_ /\ Forall has_channel (combine cs as_) /\
    conf (fst (mac_run x h cs d)) = fold_left (mirror (x_nb x)) (combine cs as_) (conf d).
Proof.
  induction cs as [|c cs IH]; intros h d H.
  - exists []. split; [constructor|]. cbn [mac_run fst concat combine fold_left]. rewrite app_nil_r. split; [reflexivity|]. split; [constructor|reflexivity].
  - cbn [reply_sizes] in H.
    assert (P : forall l, 0 <= reply_sizes l).
    { induction l as [|c0 l IHl]; [reflexivity|]. cbn [reply_sizes]. unfold reply_size. destruct (asks c0) as [[? ?]|]; lia. }
    pose proof (P cs).
    destruct (exec_reply x h c d) as (a & d1 & e & X & R & Q & N & C); [lia|].
    destruct (IH (h ++ e) d1) as (as_ & R' & Q' & N' & C').
    { rewrite Q. unfold len in *. rewrite app_length, Nat2Z.inj_add. pose proof (reply_len c a R) as L. unfold len in L. lia. }
    exists (a :: as_). split; [constructor; assumption|]. cbn [mac_run]. rewrite X.
    destruct (mac_run x (h ++ e) cs d1) as [d2 e2]. cbn [fst] in *. split.
    + rewrite Q', Q, <- app_assoc. reflexivity.
    + cbn [combine fold_left]. split; [constructor; assumption|]. rewrite <- C. exact C'.
Qed.
(** Proved for the case that the answers fit behind what is queued already. Missing:
    the case that they do not (refuted below). *)
Theorem C82_answered_partial : forall E w m v es w' fo,
  env_ok E -> reachable E w -> op_wf (OIrq m) -> step E w (OIrq m) = Some (v, es, w') -> accepted_fopts E w m es fo ->
  len (fopts w) + reply_sizes (mac_parse fo) <= 15 -> answered w w' fo.
Proof.
  intros E w m v es w' fo HE Hr Hw H Ha L. pose proof (reach_Inv E w HE Hr) as HI.
  destruct (accepted_run E w m v es w' _ HE HI H Ha) as (X & _ & _).
  destruct (run_reply (rx_ctx E w) (mac_parse fo) (cmd_hist E w) (dev_w w) L) as (as_ & A & B & N & C).
  rewrite <- X in B, C. cbn [fst] in B, C. exists as_. auto.
Qed.
Print Assumptions C82_answered_partial.
(** four commands: NewChannelReq (accepted), DevStatusReq, LinkADRReq with DR7
    (refused), RXTimingSetupReq *)
Definition four : list Z := [7; 9] ++ le 3 8671000 ++ [80] ++ [6] ++ [3; 117; 6; 0; 3] ++ [8; 3].
Example C82_case : case_of (demo [] [(dl 8 false 0 four None, 9)]) (abp 0 7 ++ [OLinkCheckReq; OSend 1 [7] false; OIrq 4; OLinkCheckReq]) (OIrq 2)
  (fun w v es w' => recvb w 2 && cb_is ERR_NO es && list_eqb (fopts w') [2; 7; 3; 6; 255; 9; 3; 5; 8] &&
     (reply_sizes (mac_parse four) =? 8) && (chan_freq w' 9 =? 867100000) && (default_rx1_delay (stk w') =? 3000)).
Proof. show_case. Qed.
Lemma reply_8 d a : reply (RXTimingSetupReq d) a -> a = [8].
Proof. intros (p & -> & H). destruct p; [reflexivity|discriminate]. Qed.
(** the queue is full: the window delay is changed and the network is not told *)
Theorem C82_unanswered_refuted : ~ (forall E w m v es w' fo,
  env_ok E -> reachable E w -> op_wf (OIrq m) -> step E w (OIrq m) = Some (v, es, w') -> accepted_fopts E w m es fo -> answered w w' fo).
Proof.
  intro C. set (E := demo [] [(dl 8 false 0 [8; 3] None, 9)]).
  destruct (case_intro E (abp 0 7 ++ after_uplink ++ repeat OLinkCheckReq 15) (OIrq 2)
    (fun w v es w' => recvb w 2 && negb (joining w) && cb_is ERR_NO es && fopts_is E w [8; 3] && list_eqb (fopts w') (fopts w) &&
       (default_rx1_delay (stk w) =? 1000) && (default_rx1_delay (stk w') =? 3000)))
    as (v & es & w' & A & B & Hw & D & F); [apply demo_ok|vm_compute; reflexivity|].
  remember (after E _) as w0 eqn:Ew. clear Ew. ands F.
  repeat match goal with H : list_eqb _ _ = true |- _ => apply list_eqb_eq in H end.
  repeat match goal with H : negb _ = true |- _ => apply negb_true_iff in H end.
  destruct (C E w0 2 v es w' [8; 3] A B Hw D) as (as_ & P & Q & _); [apply accepted_intro; assumption|].
  change (mac_parse [8; 3]) with [RXTimingSetupReq 3] in P. inversion P as [|c a cs l P1 P2 e1 e2]. subst. inversion P2. subst.
  apply reply_8 in P1. subst a. cbn [concat app] in Q.
  match goal with H : fopts w' = fopts w0 |- _ => rewrite H in Q end.
  apply (f_equal (@length Z)) in Q. rewrite app_length in Q. cbn [length] in Q. lia.
Qed.
Print Assumptions C82_unanswered_refuted.
(** six DevStatusReq: the sixth answer does not fit, and the RXTimingSetupReq behind it is
    neither carried out nor answered *)
Example C82_skipped_case : case_of (demo [] [(dl 8 false 0 [6; 6; 6; 6; 6; 6; 8; 3] None, 9)]) (abp 0 7 ++ after_uplink) (OIrq 2)
  (fun w v es w' => recvb w 2 && cb_is ERR_NO es && (len (fopts w) =? 0) && (len (fopts w') =? 15) && (default_rx1_delay (stk w') =? 1000) &&
     (Z.of_nat (length (mac_parse [6; 6; 6; 6; 6; 6; 8; 3])) =? 7)).
Proof. show_case. Qed.

(** ** C83 LinkADRReq blocks *)
Definition C83_setting (E : env) (w : world) (m : Z) (v : val) (es : list ev) (w' : world) (p m0 m1 r p' m0' m1' r' s1 s2 : Z) : Prop :=
  env_ok E /\ reachable E w /\ op_wf (OIrq m) /\ step E w (OIrq m) = Some (v, es, w') /\
  accepted_fopts E w m es [3; p; m0; m1; r; 3; p'; m0'; m1'; r'] /\ fopts w' = fopts w ++ [3; s1; 3; s2].
(** a valid request followed by one with an undefined channel: the first takes effect *)
Theorem C83_block_refuted : ~ (forall E w m v es w' p m0 m1 r p' m0' m1' r' s1 s2,
  C83_setting E w m v es w' p m0 m1 r p' m0' m1' r' s1 s2 -> block_atomic w w' s1 s2).
Proof.
  intro C. set (fo := [3; 69; 6; 0; 3; 3; 69; 0; 128; 3]). set (E := demo [] [(dl 8 false 0 fo None, 9)]).
  destruct (case_intro E (abp 0 7 ++ after_uplink) (OIrq 2)
    (fun w v es w' => recvb w 2 && negb (joining w) && cb_is ERR_NO es && fopts_is E w fo && list_eqb (fopts w) [] && list_eqb (fopts w') [3; 7; 3; 6]))
    as (v & es & w' & A & B & Hw & D & F); [apply demo_ok|vm_compute; reflexivity|].
  remember (after E _) as w0 eqn:Ew. clear Ew. ands F.
  repeat match goal with H : list_eqb _ _ = true |- _ => apply list_eqb_eq in H end.
  repeat match goal with H : negb _ = true |- _ => apply negb_true_iff in H end.
  destruct (C E w0 2 v es w' 69 6 0 3 69 0 128 3 7 6) as (C1 & _); [|discriminate C1].
  repeat (split; [assumption|]). split; [apply accepted_intro; assumption|].
  match goal with H : fopts w0 = [] |- _ => rewrite H end. assumption.
Qed.
Print Assumptions C83_block_refuted.
Example C83_block_case : case_of (demo [] [(dl 8 false 0 [3; 69; 6; 0; 3; 3; 69; 0; 128; 3] None, 9)]) (abp 0 7 ++ after_uplink) (OIrq 2)
  (fun w v es w' => recvb w 2 && cb_is ERR_NO es && list_eqb (on_list w) [0; 1; 2] && list_eqb (on_list w') [1; 2] && (ses_dr (ses w') =? 4)).
Proof. show_case. Qed.
(** What does hold: two answers, and if the last request is accepted, it alone decides
    about data rate, power, NbTrans and channels. Missing: the joint refusal. *)
Theorem C83_last_partial : forall E w m v es w' p m0 m1 r p' m0' m1' r',
  env_ok E -> reachable E w -> op_wf (OIrq m) -> step E w (OIrq m) = Some (v, es, w') ->
  accepted_fopts E w m es [3; p; m0; m1; r; 3; p'; m0'; m1'; r'] -> len (fopts w) <= 11 ->
  exists s1 s2, fopts w' = fopts w ++ [3; s1; 3; s2] /\
    (s2 = 7 -> ses_dr (ses w') = p' / 16 /\ uw_tx_power (stk w') = p' mod 16 /\
       uw_nb_trans (stk w') = (if r' mod 16 =? 0 then default_nb_trans (stk w) else r' mod 16) /\
       forall i, 0 <= i < 16 -> chan_on w' i = Z.testbit (m0' + 256 * m1') i /\ chan_freq w' i = chan_freq w i) /\
    (s1 <> 7 -> s2 <> 7 -> same_radio w w' /\ same_chan w w') /\ same_rx w w' /\ same_delay w w'.
Proof.
  intros E w m v es w' p m0 m1 r p' m0' m1' r' HE Hr Hw H Ha L.
  destruct (C82_answered_partial E w m v es w' _ HE Hr Hw H Ha) as (as_ & P & Q & _ & C).
  { cbn. lia. }
  change (mac_parse [3; p; m0; m1; r; 3; p'; m0'; m1'; r']) with
    [LinkADRReq (p / 16) (p mod 16) (unle [m0; m1]) (r / 16 mod 8) (r mod 16);
     LinkADRReq (p' / 16) (p' mod 16) (unle [m0'; m1']) (r' / 16 mod 8) (r' mod 16)] in P, C.
  inversion P as [|c a cs l P1 P2 e1 e2]. subst. inversion P2 as [|c2 a2 cs2 l2 P3 P4 e3 e4]. subst. inversion P4. subst.
  destruct P1 as (q1 & -> & L1). destruct P3 as (q2 & -> & L2).
  destruct q1 as [|s1 [|]]; try discriminate. destruct q2 as [|s2 [|]]; try discriminate. clear L1 L2 P P2 P4.
  cbn [concat app] in Q. exists s1, s2. split; [exact Q|].
  assert (Em : unle [m0'; m1'] = m0' + 256 * m1') by (cbn [unle]; lia). rewrite Em in C. clear Em.
  set (mask := m0' + 256 * m1') in *.
  assert (Ht : forall i, 0 <= i < 16 -> (chan_freq w' i, chan_on w' i) = nth (Z.to_nat i) (v_table (conf (dev_w w'))) (0, false)) by (intros; symmetry; apply table_nth; assumption).
  assert (Ht0 : forall i, 0 <= i < 16 -> nth (Z.to_nat i) (v_table (dev_w w)) (0, false) = (chan_freq w i, chan_on w i)) by (intros; apply table_nth; assumption).
  assert (Lt : length (v_table (dev_w w)) = 16%nat) by (change (v_table (dev_w w)) with (table w); apply table_length).
  unfold same_radio, same_rx, same_delay, same_chan.
  change (ses_dr (ses w')) with (v_dr (conf (dev_w w'))). change (uw_tx_power (stk w')) with (v_power (conf (dev_w w'))).
  change (uw_nb_trans (stk w')) with (v_nb (conf (dev_w w'))). change (uw_rx1_offset (stk w')) with (v_rx1_off (conf (dev_w w'))).
  change (uw_rx2_frequency (stk w')) with (v_rx2_freq (conf (dev_w w'))). change (uw_rx2_dr (stk w')) with (v_rx2_dr (conf (dev_w w'))).
  change (default_rx1_delay (stk w')) with (v_rx1_delay (conf (dev_w w'))).
  rewrite C in Ht |- *. clear C Q. cbn [combine fold_left] in *.
  assert (M : forall d dr pw k cn nb s, mirror (default_nb_trans (stk w)) d (LinkADRReq dr pw k cn nb, [3; s]) =
    if s =? 7 then Mk_dev (mask_apply k (v_table d)) dr pw (if nb =? 0 then default_nb_trans (stk w) else nb) (v_rx1_off d) (v_rx2_freq d) (v_rx2_dr d) (v_rx1_delay d) (v_queue d) else d).
  { intros. cbn [mirror]. destruct s as [|q|q]; try reflexivity. do 3 (destruct q; try reflexivity). }
  rewrite !M in *. clear M.
  split; [|split].
  - intros ->. cbn [Z.eqb Pos.eqb] in *. cbn [v_dr v_power v_nb v_table] in *. repeat (split; [reflexivity|]).
    intros i Hi. specialize (Ht i Hi).
    assert (T : forall k t, length t = 16%nat -> nth (Z.to_nat i) (mask_apply k t) (0, false) = (fst (nth (Z.to_nat i) t (0, false)), Z.testbit k i)).
    { intros k t Ld. rewrite mask_apply_nth by lia. rewrite Z2Nat.id by lia. reflexivity. }
    assert (G : forall l k, length (mask_apply k l) = length l) by (induction l as [|e l IH]; intros k; [reflexivity|]; cbn; rewrite IH; reflexivity).
    destruct (s1 =? 7); cbn [v_table conf] in Ht; rewrite !T in Ht by (rewrite ?G; exact Lt);
      cbn [fst] in Ht; rewrite Ht0 in Ht by exact Hi; injection Ht as -> ->; auto.
  - intros N1 N2. apply Z.eqb_neq in N1, N2. rewrite N1, N2 in *. split; [repeat split; reflexivity|].
    intros i Hi. specialize (Ht i Hi). cbn [v_table conf] in Ht. rewrite Ht0 in Ht by exact Hi. injection Ht as -> ->. auto.
  - destruct (s1 =? 7), (s2 =? 7); repeat split; reflexivity.
Qed.
Print Assumptions C83_last_partial.

(** ** C81 Answers about the receive windows are repeated until a downlink arrives *)
Lemma concat_answers ch : Forall mac_answer ch -> forall n, (length (concat ch) <= n)%nat -> answers_in n (concat ch) = ch.
Proof.
  induction 1 as [|a ch Ha Hc IH]; intros n Hn; [destruct n; reflexivity|]. cbn [concat] in *. rewrite app_length in Hn.
  assert (K : exists cid p k, a = cid :: p /\ answer_size cid = Some k /\ length p = k).
  { destruct Ha as [->|[->|[->|[->|[(s & [->|[->| ->]])|(b & s & ->)]]]]]; do 3 eexists; repeat split. }
  destruct K as (cid & p & k & -> & K1 & <-). cbn [app length] in *. destruct n as [|n]; [lia|]. cbn [answers_in]. rewrite K1.
  rewrite firstn_app, firstn_all, Nat.sub_diag, skipn_app, skipn_all, Nat.sub_diag. cbn [firstn skipn app]. rewrite app_nil_r.
  rewrite IH by lia. reflexivity.
Qed.
Lemma reach_answers E w : env_ok E -> reachable E w -> exists ch, Forall mac_answer ch /\ fopts w = concat ch.
Proof.
  intros HE (ops & tr & Ho & Hx). revert Ho.
  assert (G : forall w0 ops tr w, exec E w0 ops tr w -> Inv (w_st w0) -> Forall op_wf ops ->
    (exists ch, Forall mac_answer ch /\ fopts w0 = concat ch) -> exists ch, Forall mac_answer ch /\ fopts w = concat ch).
  { clear -HE. induction 1 as [w|w o ops v es w1 tr w2 H Hx IH]; intros HI Ho (ch & A & B); [eauto|].
    apply Forall_cons_iff in Ho. destruct Ho as [Hw Ho]. apply IH; [eapply step_Inv; eauto|exact Ho|].
    destruct (step_queue E w o v es w1 HE HI Hw H) as [(r & _ & C & _)|[(f & _ & _ & C & _)|(_ & _ & c2 & C & D & _)]].
    - exists []. split; [constructor|exact C].
    - exists []. split; [constructor|exact C].
    - exists (ch ++ c2). split; [apply Forall_app; auto|]. rewrite C, B, concat_app. reflexivity. }
  intro Ho. apply (G world0 ops tr w Hx power_on_Inv Ho). exists []. split; [constructor|reflexivity].
Qed.
(** what is queued is carried by the next data uplink *)
Lemma next_uplink E w ops tr w' f fs : env_ok E -> Inv (w_st w) -> Forall op_wf ops -> exec E w ops tr w' ->
  Forall (fun t => ~ is_init t) tr -> data_frames tr = f :: fs ->
  exists ch, Forall mac_answer ch /\ fr_fopts f = fopts w ++ concat ch.
Proof.
  intros HE HI Ho Hx. revert HI Ho. induction Hx as [w|w o ops v es w1 tr w2 H Hx IH]; intros HI Ho Hn Hd; [discriminate|].
  apply Forall_cons_iff in Ho. destruct Ho as [Hw Ho]. apply Forall_cons_iff in Hn. destruct Hn as [Hn1 Hn].
  assert (Hd' : data_frames [(o, v, es)] ++ data_frames tr = f :: fs).
  { unfold data_frames in *. cbn [flat_map] in *. rewrite app_nil_r. exact Hd. }
  destruct (step_queue E w o v es w1 HE HI Hw H) as [(r & C & _)|[(g & C & D & _)|(C & _ & c2 & D & D2 & _)]].
  - exfalso. apply Hn1. exists r. exact C.
  - rewrite C in Hd'. injection Hd' as -> _. exists []. split; [constructor|]. cbn [concat]. rewrite app_nil_r. exact D.
  - rewrite C in Hd'. destruct (IH (step_Inv E w o v es w1 HE HI Hw H) Ho Hn Hd') as (ch & A & B).
    exists (c2 ++ ch). split; [apply Forall_app; auto|]. rewrite B, D, concat_app, <- app_assoc. reflexivity.
Qed.
Definition C81_setting (E : env) (w : world) (m : Z) (v : val) (es : list ev) (w1 : world) (fo : list Z) (cid : Z)
    (ops : list op) (tr : list entry) (w2 : world) : Prop :=
  env_ok E /\ reachable E w /\ op_wf (OIrq m) /\ step E w (OIrq m) = Some (v, es, w1) /\
  accepted_fopts E w m es fo /\ rx_request fo cid /\ len (fopts w) <= 13 /\
  Forall op_wf ops /\ exec E w1 ops tr w2 /\ Forall (fun t => ~ is_init t) tr.
(** What holds: the first uplink carries the answer. Missing: the others (refuted below). *)
Theorem C81_first_partial : forall E w m v es w1 fo cid ops tr w2 f fs,
  C81_setting E w m v es w1 fo cid ops tr w2 -> data_frames tr = f :: fs -> answers_cmd cid f.
Proof.
  intros E w m v es w1 fo cid ops tr w2 f fs (HE & Hr & Hw & H & Ha & Hq & L & Ho & Hx & Hn) Hd.
  pose proof (reach_Inv E w HE Hr) as HI.
  assert (A : answered w w1 fo).
  { eapply C82_answered_partial; try eassumption. destruct Hq; cbn; lia. }
  destruct A as (as_ & P & Q & _).
  assert (K : exists p, as_ = [cid :: p] /\ mac_answer (cid :: p)).
  { inversion Hq; subst.
    - change (mac_parse [5; s; f0; f1; f2]) with [RXParamSetupReq (s / 16 mod 8) (s mod 16) (100 * unle [f0; f1; f2])] in P.
      inversion P as [|c a cs l P1 P2 e1 e2]; subst. inversion P2; subst. destruct P1 as (p & -> & Lp).
      destruct p as [|x [|]]; try discriminate. exists [x]. split; [reflexivity|]. unfold mac_answer. eauto 10.
    - change (mac_parse [8; d]) with [RXTimingSetupReq (d mod 16)] in P.
      inversion P as [|c a cs l P1 P2 e1 e2]; subst. inversion P2; subst. apply reply_8 in P1. subst. exists []. split; [reflexivity|]. unfold mac_answer. auto 10. }
  destruct K as (p & -> & Ka). cbn [concat] in Q. rewrite app_nil_r in Q.
  destruct (reach_answers E w HE Hr) as (c0 & A0 & B0).
  destruct (next_uplink E w1 ops tr w2 f fs HE (step_Inv E w (OIrq m) v es w1 HE HI Hw H) Ho Hx Hn Hd) as (c2 & A2 & B2).
  exists p. unfold answers.
  assert (T : fr_fopts f = concat (c0 ++ (cid :: p) :: c2)).
  { rewrite B2, Q, B0, concat_app. cbn [concat]. rewrite <- app_assoc. reflexivity. }
  rewrite T. rewrite concat_answers.
  - apply in_or_app. right. left. reflexivity.
  - apply Forall_app. split; [exact A0|]. constructor; assumption.
  - lia.
Qed.
Print Assumptions C81_first_partial.
(** the second uplink after the command does not carry the answer: if the first is lost,
    the network never hears of the new delay and misses the device's windows *)
Theorem C81_repeat_refuted : ~ (forall E w m v es w1 fo cid ops tr w2,
  C81_setting E w m v es w1 fo cid ops tr w2 -> Forall no_downlink tr -> Forall (answers_cmd cid) (data_frames tr)).
Proof.
  intro C. set (E := demo [] [(dl 8 false 0 [8; 3] None, 9)]).
  set (ops := [OSend 1 [7] false; OIrq 4; OTimer TIMER_RX1; OIrq 1; OTimer TIMER_RX2; OIrq 1; OSend 1 [8] false]).
  destruct (run_intro E (abp 0 7 ++ after_uplink) (OIrq 2 :: ops)
    (fun w tr w' => recvb w 2 && negb (joining w) && fopts_is E w [8; 3] && list_eqb (fopts w) [] &&
       match tr with
       | (_, _, es) :: tr' => cb_is ERR_NO es && forallb (fun t => forallb (fun c => negb (err_eqb ERR_NO (fst (fst c)))) (callbacks (snd t))) tr' &&
           forallb (fun t => match fst (fst t) with OInit _ => false | _ => true end) tr' &&
           match data_frames tr' with [f; g] => list_eqb (fr_fopts g) [] | _ => false end
       | [] => false
       end))
    as (tr & w' & A & B & Hw & D & F); [apply demo_ok|vm_compute; reflexivity|].
  remember (after E _) as w0 eqn:Ew. clear Ew.
  inversion D as [|wa o opsa v es w1 tra w2 S1 S2]; subst. rename tra into tr.
  apply Forall_cons_iff in Hw. destruct Hw as [Hw1 Hw].
  apply andb_prop in F. destruct F as [F1 F2]. ands F1. ands F2.
  destruct (data_frames tr) as [|f [|g [|]]] eqn:Ed; try discriminate.
  repeat match goal with H : list_eqb _ _ = true |- _ => apply list_eqb_eq in H end.
  repeat match goal with H : negb _ = true |- _ => apply negb_true_iff in H end.
  assert (X : Forall (answers_cmd 8) (data_frames tr)).
  { eapply (C E w0 2 v es w1 [8; 3] 8 ops tr w').
    - repeat (split; [assumption|]). split; [apply accepted_intro; assumption|]. split; [constructor|].
      split; [match goal with H : fopts w0 = [] |- _ => rewrite H end; discriminate|]. split; [assumption|]. split; [assumption|].
      apply Forall_forall. intros t Ht (r & Hi).
      match goal with H : forallb ?g tr = true |- _ => rewrite forallb_forall in H; specialize (H t Ht); rewrite Hi in H; discriminate end.
    - apply Forall_forall. intros t Ht ty vw Hin.
      match goal with H : forallb ?g tr = true |- _ => rewrite forallb_forall in H; specialize (H t Ht); rewrite forallb_forall in H; specialize (H _ Hin); discriminate end. }
  rewrite Ed in X. apply Forall_inv_tail, Forall_inv in X. destruct X as (a & X). unfold answers in X.
  match goal with H : fr_fopts g = [] |- _ => rewrite H in X end. exact X.
Qed.
Print Assumptions C81_repeat_refuted.
Example C81_case : run_of (demo [] [(dl 8 false 0 ([5; 35] ++ le 3 8699000) None, 9)]) (abp 0 7 ++ after_uplink)
  [OIrq 2; OLinkCheckReq; OSend 1 [7] false; OIrq 4; OTimer TIMER_RX1; OIrq 1; OTimer TIMER_RX2; OIrq 1; OSend 1 [8] false]
  (fun w tr w' => match data_frames tr with [f; g] => list_eqb (fr_fopts f) [5; 7; 2] && list_eqb (fr_fopts g) [] | _ => false end).
Proof. show_run. Qed.
