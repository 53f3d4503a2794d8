(** LCmd.v -- the MAC queue and MAC commands along executions. *)
From Verif Require Export SpecCmd LDown3.

Lemma uplink_fopts E p d c s : Inv s -> fr_fopts (send_frame_bytes E p d c s) = queue (s_mac s).
Proof.
  intro HI. unfold send_frame_bytes. set (q := queue (s_mac s)).
  assert (Hq : len q < 16) by (unfold q; rewrite queue_len by apply HI; pose proof (iv_mac _ HI) as K; destruct K; lia).
  set (fc := up_fctrl (adr_is_enabled (s_adr s)) (up_req s) (ack_required (s_ses s)) q).
  unfold fr_fopts, fr_fopts_len.
  assert (A : at_ (uplink_frame (e_aes E) (e_cmac E) (nwk_s_key (s_ses s)) (app_s_key (s_ses s)) (dev_addr (s_ses s))
    (f_cnt_up (s_ses s)) c (adr_is_enabled (s_adr s)) (up_req s) (ack_required (s_ses s)) q p d) 5 = fc) by reflexivity.
  rewrite A. unfold fc, up_fctrl. destruct (fctrl_bits (adr_is_enabled (s_adr s)) (up_req s) (ack_required (s_ses s)) (len q)) as (-> & _).
  { unfold len in *. lia. }
  unfold slice, uplink_frame, sealed, data_body.
  rewrite <- !app_assoc. set (r := match crypt _ _ _ _ _ _ with [] => [] | _ => _ end ++ _).
  set (hd := [if c then MHDR_CONF_UP else MHDR_UNCONF_UP] ++ le 4 (dev_addr (s_ses s)) ++
    [up_fctrl (adr_is_enabled (s_adr s)) (up_req s) (ack_required (s_ses s)) q] ++ le 2 (f_cnt_up (s_ses s))).
  match goal with |- firstn _ (skipn 8 ?l) = _ => replace l with (hd ++ q ++ r) by (unfold hd; rewrite <- !app_assoc; reflexivity) end.
  rewrite (Wp.skipn_exact 8) by reflexivity.
  apply firstn_exact. unfold len. lia.
Qed.

Inductive mac_case (E : env) (w : world) (o : op) (v : val) (es : list ev) (w' : world) : Prop :=
| MC_same : s_mac (w_st w') = s_mac (w_st w) -> data_frames [(o, v, es)] = [] ->
    (forall r, o <> OInit r) -> o <> OLinkCheckReq -> o <> ODevTimeReq -> mac_case E w o v es w'
| MC_init r : o = OInit r -> es = init_evs E (w_hist w) ->
    s_mac (w_st w') = set_mac_save_dev_time false (set_mac_buf_pos 0 (s_mac (w_st w))) -> mac_case E w o v es w'
| MC_sent f : is_uplink_call o = true -> data_frames [(o, v, es)] = [f] -> fr_fopts f = fopts w ->
    s_mac (w_st w') = set_mac_buf_pos 0 (s_mac (w_st w)) -> mac_case E w o v es w'
| MC_link : o = OLinkCheckReq -> v = VBool (p_fits [] (s_mac (w_st w))) -> es = [] ->
    s_mac (w_st w') = p_enq 2 [] (s_mac (w_st w)) -> mac_case E w o v es w'
| MC_time : o = ODevTimeReq -> v = VBool (p_fits [] (s_mac (w_st w))) -> es = [] ->
    s_mac (w_st w') = set_mac_save_dev_time (p_fits [] (s_mac (w_st w))) (p_enq 13 [] (s_mac (w_st w))) ->
    mac_case E w o v es w'
| MC_handlers c : o = OSetHandlers c -> es = [] -> s_mac (w_st w') = set_mac_cbs c (s_mac (w_st w)) -> mac_case E w o v es w'
| MC_txdone m : o = OIrq m -> uw_state (stk w) = TX -> Z.testbit m 2 = true -> time_ok (s_mac (w_st w)) ->
    es = tx_done_evs E (w_hist w) (w_st w) ->
    s_mac (w_st w') = tx_done_mac E (w_hist w ++ tx_done_evs1 (w_st w)) (s_mac (w_st w)) -> data_frames [(o, v, es)] = [] ->
    mac_case E w o v es w'
| MC_data m : o = OIrq m -> receives w m -> joining w = false -> data_frames [(o, v, es)] = [] ->
    untouched w w' ->
    (dev_w w', mac_calls es) = mac_run (rx_ctx E w) (cmd_hist E w) (mac_parse (fr_fopts (rx_data (received E w)))) (dev_w w) ->
    mac_case E w o v es w'.

Lemma relax_txdone E h s : tx_done_evs (relax E) h s = tx_done_evs E h s /\
  forall h' m, tx_done_mac (relax E) h' m = tx_done_mac E h' m.
Proof. split; reflexivity. Qed.

Lemma step_mac E w o v es w' : env_ok E -> Inv (w_st w) -> op_wf o -> step E w o = Some (v, es, w') ->
  mac_case E w o v es w'.
Proof.
  intros HE HI Hw H. pose proof (step_tx E w o v es w' HE HI Hw H) as T.
  destruct T as [p d c h1 s1 S|A B C D F G|A B].
  - destruct (sent_obs _ _ _ _ _ _ _ _ _ _ _ _ S) as (Ht & _). destruct S as [Hcall _ _ Hsame _ _ _ _ Hst _ _ HI1 _].
    apply (MC_sent _ _ _ _ _ _ (send_frame_bytes E p d c s1)).
    + exact Hcall.
    + unfold data_frames. cbn [flat_map fst snd]. rewrite app_nil_r, Ht. destruct o; try reflexivity; discriminate.
    + rewrite uplink_fopts by exact HI1. destruct Hsame as (cc & ->). reflexivity.
    + rewrite Hst. destruct Hsame as (cc & ->). reflexivity.
  - subst o. apply MC_same; [rewrite F; reflexivity|reflexivity|discriminate..].
  - assert (Hdf : data_frames [(o, v, es)] = []) by (unfold data_frames; cbn [flat_map fst snd]; rewrite app_nil_r, A; destruct o; reflexivity).
    pose proof H as H0. apply step_inv in H; try assumption. remember (w_st w') as sw eqn:Esw.
    destruct H as [o v s' H|r|e s' es H|p d c e s' es H|t|m s' es H|e b n p es s' H1 H2 H3|a e H1 H2|a e s' es H1 H|e H1 H2|e s' es H1 H].
    + destruct o; cbn [simple] in H; try discriminate;
        repeat match type of H with context [if ?b then _ else _] => lazymatch b with p_fits _ _ => fail | _ => destruct b end end;
        injection H as <- <-.
      all: try (apply MC_same; [rewrite <- Esw; reflexivity|reflexivity|discriminate..]).
      * eapply MC_handlers; [reflexivity|reflexivity|rewrite <- Esw; reflexivity].
      * apply MC_link; [reflexivity|reflexivity|reflexivity|rewrite <- Esw; reflexivity].
      * apply MC_time; [reflexivity|reflexivity|reflexivity|rewrite <- Esw; reflexivity].
    + apply (MC_init _ _ _ _ _ _ r); [reflexivity|reflexivity|rewrite <- Esw; reflexivity].
    + destruct B as (_ & _ & (cc & B)); [right; reflexivity|]. apply MC_same; [rewrite <- Esw, B; reflexivity|exact Hdf|discriminate..].
    + destruct B as (_ & _ & (cc & B)); [left; reflexivity|]. apply MC_same; [rewrite <- Esw, B; reflexivity|exact Hdf|discriminate..].
    + apply MC_same; [rewrite <- Esw; reflexivity|exact Hdf|discriminate..].
    + destruct (recv_dec w m) as [R|R].
      * destruct (joining w) eqn:J.
        -- destruct (join_outcome E w m _ _ w' HE HI H0 R J) as [r vw X1 X2 _ _ _ X3 X4 K|rg vw X1 X2 X3 X4 X5 X6].
           ++ destruct K as (_ & _ & K & _). apply MC_same; [exact K|exact Hdf|discriminate..].
           ++ apply MC_same; [|exact Hdf|discriminate..].
              assert (Hr' : s_mac (w_st w') = s_mac (w_st w)); [|exact Hr'].
              rewrite X6. unfold ja_state. reflexivity.
        -- destruct (data_outcome E w m _ _ w' HE HI H0 R J) as [r t vw X1 X2 X3 X4 X5 K|].
           ++ destruct K as (_ & _ & K & _). apply MC_same; [exact K|exact Hdf|discriminate..].
           ++ apply (MC_data _ _ _ _ _ _ m); auto.
      * clear A B. unfold receives, stk in R. rewrite Esw in H. inv_ok H; unfold flag in *; try (exfalso; apply R; auto; fail).
        -- apply MC_same; [rewrite <- Es; reflexivity|exact Hdf|discriminate..].
        -- apply (MC_txdone _ _ _ _ _ _ m); auto. rewrite <- Es. reflexivity.
        -- apply MC_same; [rewrite <- Es; reflexivity|exact Hdf|discriminate..].
        -- apply MC_same; [rewrite <- Es; reflexivity|exact Hdf|discriminate..].
        -- apply MC_same; [rewrite <- Es; reflexivity|exact Hdf|discriminate..].
        -- apply MC_same; [rewrite <- Es; reflexivity|exact Hdf|discriminate..].
    + apply MC_same; [rewrite <- Esw, H1; reflexivity|exact Hdf|discriminate..].
    + apply MC_same; [rewrite <- Esw; reflexivity|exact Hdf|discriminate..].
    + destruct B as (_ & _ & (cc & B)); [left; reflexivity|]. apply MC_same; [rewrite <- Esw, B; reflexivity|exact Hdf|discriminate..].
    + apply MC_same; [rewrite <- Esw; reflexivity|exact Hdf|discriminate..].
    + destruct B as (_ & _ & (cc & B)); [left; reflexivity|]. apply MC_same; [rewrite <- Esw, B; reflexivity|exact Hdf|discriminate..].
Qed.

(** ** The queue *)
Lemma answer_queue a d : v_queue (fst (answer a d)) = queued (v_queue d) a.
Proof. unfold answer, queued. destruct (_ <=? 15); reflexivity. Qed.
Lemma answer_chunk a d : mac_answer a -> exists ch, v_queue (fst (answer a d)) = v_queue d ++ concat ch /\ Forall mac_answer ch /\
  (length ch <= 1)%nat.
Proof.
  intro Ha. rewrite answer_queue. unfold queued. destruct (_ <=? 15).
  - exists [a]. cbn [concat]. rewrite app_nil_r. auto.
  - exists []. cbn [concat]. rewrite app_nil_r. auto.
Qed.
Lemma exec_chunk x h c d : exists ch, v_queue (fst (fst (mac_exec x h c d))) = v_queue d ++ concat ch /\ Forall mac_answer ch /\
  (length ch <= 1)%nat.
Proof.
  assert (N : forall d' : dev, v_queue d' = v_queue d -> exists ch, v_queue d' = v_queue d ++ concat ch /\ Forall mac_answer ch /\ (length ch <= 1)%nat).
  { intros d' Hd. exists []. cbn [concat]. rewrite app_nil_r. auto. }
  destruct c; cbn [mac_exec fst].
  - apply N. reflexivity.
  - set (b := _ && _ && _). destruct b; [apply (answer_chunk [3; _] (Mk_dev _ _ _ _ _ _ _ _ _))|apply answer_chunk]; unfold mac_answer; right; right; right; right; left; eauto.
  - apply answer_chunk. unfold mac_answer. auto.
  - set (b := _ && _ && _). destruct b; [apply (answer_chunk [5; _] (Mk_dev _ _ _ _ _ _ _ _ _))|apply answer_chunk]; unfold mac_answer; right; right; right; right; left; eauto.
  - destruct (x_cbs x) as [cb|]; [destruct (has_get_battery_level cb)|]; apply answer_chunk; unfold mac_answer; do 5 right; eauto.
  - set (b := _ && _ && (_ <? 16)). destruct b; [apply (answer_chunk [7; _] (Mk_dev _ _ _ _ _ _ _ _ _))|apply answer_chunk]; unfold mac_answer; right; right; right; right; left; eauto.
  - apply (answer_chunk [8] (Mk_dev _ _ _ _ _ _ _ _ _)). unfold mac_answer. auto.
  - apply N. reflexivity.
  - apply N. reflexivity.
  - apply N. reflexivity.
Qed.
Lemma run_chunks x cs : forall h d, exists ch, v_queue (fst (mac_run x h cs d)) = v_queue d ++ concat ch /\ Forall mac_answer ch /\
  (length ch <= length cs)%nat.
Proof.
  induction cs as [|c cs IH]; intros h d.
  { exists []. cbn [mac_run fst concat]. rewrite app_nil_r. auto. }
  cbn [mac_run]. destruct (exec_chunk x h c d) as (ch & Q1 & Q2 & Q3).
  destruct (mac_exec x h c d) as [[d1 go] e1]. cbn [fst] in Q1. destruct go.
  - destruct (IH (h ++ e1) d1) as (ch' & R1 & R2 & R3). destruct (mac_run x (h ++ e1) cs d1) as [d2 e2]. cbn [fst] in *.
    exists (ch ++ ch'). rewrite R1, Q1, concat_app, app_assoc. split; [reflexivity|]. split; [apply Forall_app; auto|].
    rewrite app_length. cbn [length]. lia.
  - cbn [fst]. exists ch. split; [exact Q1|]. split; [exact Q2|]. cbn [length]. lia.
Qed.

Lemma fits_queue m : mac_ok m -> p_fits [] m = (len (queue m) <? 15).
Proof. intro H. rewrite queue_len by exact H. unfold p_fits. change (len []) with 0. destruct (Z.leb_spec (mac_buf_pos m + 1 + 0) 15), (Z.ltb_spec (mac_buf_pos m) 15); lia || reflexivity. Qed.
Lemma enq_queued cid m : mac_ok m -> queue (p_enq cid [] m) = queued (queue m) [cid].
Proof.
  intro H. rewrite p_enq_queue by exact H. unfold queued. rewrite fits_queue by exact H. change (len [cid]) with 1.
  destruct (Z.leb_spec (len (queue m) + 1) 15), (Z.ltb_spec (len (queue m)) 15); lia || reflexivity.
Qed.
Lemma fopts_len w : Inv (w_st w) -> len (fopts w) <= 15.
Proof. intro HI. change (fopts w) with (queue (s_mac (w_st w))). rewrite queue_len by apply HI. pose proof (iv_mac _ HI) as K. destruct K. lia. Qed.

(** what a call does to the queue *)
Lemma step_queue E w o v es w' : env_ok E -> Inv (w_st w) -> op_wf o -> step E w o = Some (v, es, w') ->
  (exists r, o = OInit r /\ fopts w' = [] /\ data_frames [(o, v, es)] = []) \/
  (exists f, data_frames [(o, v, es)] = [f] /\ fr_fopts f = fopts w /\ fopts w' = [] /\ is_uplink_call o = true) \/
  (data_frames [(o, v, es)] = [] /\ (forall r, o <> OInit r) /\
   exists ch, fopts w' = fopts w ++ concat ch /\ Forall mac_answer ch /\
     (ch <> [] -> (o = OLinkCheckReq /\ v = VBool true /\ ch = [[2]]) \/ (o = ODevTimeReq /\ v = VBool true /\ ch = [[13]]) \/
        exists m, o = OIrq m /\ receives w m /\ joining w = false)).
Proof.
  intros HE HI Hw H. pose proof (step_mac E w o v es w' HE HI Hw H) as M. pose proof (iv_mac _ HI) as HM.
  assert (Q0 : fopts w = queue (s_mac (w_st w))) by reflexivity. assert (Q1 : fopts w' = queue (s_mac (w_st w'))) by reflexivity.
  assert (K : queue (s_mac (w_st w')) = queue (s_mac (w_st w)) -> data_frames [(o, v, es)] = [] -> (forall r, o <> OInit r) ->
    data_frames [(o, v, es)] = [] /\ (forall r, o <> OInit r) /\
   exists ch, fopts w' = fopts w ++ concat ch /\ Forall mac_answer ch /\
     (ch <> [] -> (o = OLinkCheckReq /\ v = VBool true /\ ch = [[2]]) \/ (o = ODevTimeReq /\ v = VBool true /\ ch = [[13]]) \/
        exists m, o = OIrq m /\ receives w m /\ joining w = false)).
  { intros K1 K2 K3. split; [exact K2|]. split; [exact K3|]. exists []. cbn [concat]. rewrite app_nil_r, Q0, Q1, K1.
    split; [reflexivity|]. split; [constructor|congruence]. }
  destruct M as [A B C _ _|r A B C|f A B C D|A B C D|A B C D|c A B C|m A B C D F0 F G|m A B C D F G].
  - right. right. apply K; [rewrite A; reflexivity|exact B|exact C].
  - left. exists r. subst o es. split; [reflexivity|]. split; [rewrite Q1, C; reflexivity|]. reflexivity.
  - right. left. exists f. split; [exact B|]. split; [exact C|]. split; [rewrite Q1, D; reflexivity|exact A].
  - right. right. subst o v es. split; [reflexivity|]. split; [discriminate|]. rewrite Q1, D, Q0, enq_queued by exact HM.
    rewrite fits_queue by exact HM. unfold queued. change (len [2]) with 1.
    destruct (Z.leb_spec (len (queue (s_mac (w_st w))) + 1) 15); destruct (Z.ltb_spec (len (queue (s_mac (w_st w)))) 15); try lia.
    + exists [[2]]. cbn [concat]. rewrite app_nil_r. split; [reflexivity|]. split; [repeat constructor|auto].
    + exists []. cbn [concat]. rewrite app_nil_r. split; [reflexivity|]. split; [constructor|congruence].
  - right. right. subst o v es. split; [reflexivity|]. split; [discriminate|].
    assert (X : fopts w' = queue (p_enq 13 [] (s_mac (w_st w)))) by (rewrite Q1, D; reflexivity).
    rewrite X, Q0, enq_queued by exact HM.
    rewrite fits_queue by exact HM. unfold queued. change (len [13]) with 1.
    destruct (Z.leb_spec (len (queue (s_mac (w_st w))) + 1) 15); destruct (Z.ltb_spec (len (queue (s_mac (w_st w)))) 15); try lia.
    + exists [[13]]. cbn [concat]. rewrite app_nil_r. split; [reflexivity|]. split; [constructor; [unfold mac_answer; auto|constructor]|auto].
    + exists []. cbn [concat]. rewrite app_nil_r. split; [reflexivity|]. split; [constructor|congruence].
  - right. right. apply K; [rewrite C; reflexivity|subst o es; reflexivity|subst o; discriminate].
  - right. right. apply K; [|exact G|subst o; discriminate]. rewrite F. unfold tx_done_mac.
    destruct (mac_save_dev_time (s_mac (w_st w))), (mac_cbs (s_mac (w_st w))) as [cb|]; try reflexivity.
    destruct (has_get_device_time cb); reflexivity.
  - right. right. split; [exact D|]. split; [subst o; discriminate|].
    destruct (run_chunks (rx_ctx E w) (mac_parse (fr_fopts (rx_data (received E w)))) (cmd_hist E w) (dev_w w)) as (ch & R1 & R2 & R3).
    rewrite <- G in R1. cbn [fst] in R1. exists ch. split; [exact R1|]. split; [exact R2|]. eauto 8.
Qed.

Lemma exec_queue E w ops tr w' : env_ok E -> Inv (w_st w) -> Forall op_wf ops -> exec E w ops tr w' ->
  Forall (fun t => ~ is_init t) tr ->
  exists ch, Forall mac_answer ch /\ fopts w ++ concat ch = sent_fopts tr ++ fopts w'.
Proof.
  intros HE HI Hw Hx. revert HI. induction Hx as [w|w o ops v es w1 tr w2 H Hx IH]; intros HI Hn.
  { exists []. cbn [concat]. rewrite app_nil_r. auto. }
  pose proof (Forall_inv Hw) as Hw1. pose proof (Forall_inv_tail Hw) as Hw2. pose proof (Forall_inv Hn) as Hn1. pose proof (Forall_inv_tail Hn) as Hn2.
  destruct (IH Hw2 (step_Inv E w _ _ _ _ HE HI Hw1 H) Hn2) as (ch & C1 & C2). clear IH.
  assert (Hs : sent_fopts ((o, v, es) :: tr) = flat_map fr_fopts (data_frames [(o, v, es)]) ++ sent_fopts tr).
  { unfold sent_fopts. change ((o, v, es) :: tr) with ([(o, v, es)] ++ tr). unfold data_frames. rewrite flat_map_app, flat_map_app. reflexivity. }
  rewrite Hs. destruct (step_queue E w o v es w1 HE HI Hw1 H) as [(r & -> & _)|[(f & D1 & D2 & D3 & _)|(D1 & D2 & ch1 & D3 & D4 & _)]].
  - exfalso. apply Hn1. exists r. reflexivity.
  - exists ch. split; [exact C1|]. rewrite D1. cbn [flat_map]. rewrite app_nil_r, D2, <- app_assoc, <- C2, D3. reflexivity.
  - exists (ch1 ++ ch). split; [apply Forall_app; auto|]. rewrite D1. cbn [flat_map app]. rewrite <- C2, D3, concat_app, app_assoc. reflexivity.
Qed.

(** ** Single commands *)
Lemma accepted_run E w m v es w' fo : env_ok E -> Inv (w_st w) -> step E w (OIrq m) = Some (v, es, w') ->
  accepted_fopts E w m es fo ->
  (dev_w w', mac_calls es) = mac_run (rx_ctx E w) (cmd_hist E w) (mac_parse fo) (dev_w w) /\ untouched w w' /\ same_keys w w'.
Proof.
  intros HE HI H (R & (J & t & vw & D) & <-).
  destruct (data_outcome E w m v es w' HE HI H R J) as [r t' vw' A _ _ C _ _|r c t' vw' A1 A2 A3 A4 A5 A6 C K1 K2 K3 K4 K5]; [congruence|auto].
Qed.
Lemma run_single x h c d : mac_run x h [c] d = (fst (fst (mac_exec x h c d)), snd (mac_exec x h c d)).
Proof. cbn [mac_run]. destruct (mac_exec x h c d) as [[d1 []] e1]; cbn [fst snd]; rewrite ?app_nil_r; reflexivity. Qed.
Lemma mask_apply_nth t : forall mask i, (i < length t)%nat ->
  nth i (mask_apply mask t) (0, false) = (fst (nth i t (0, false)), Z.testbit mask (Z.of_nat i)).
Proof.
  induction t as [|e t IH]; intros mask i Hi; [cbn in Hi; lia|]. destruct i as [|i]; cbn [mask_apply nth].
  - rewrite Z.bit0_odd. reflexivity.
  - rewrite IH by (cbn in Hi; lia). f_equal. rewrite <- Z.div2_div, Z.div2_spec, Z.shiftr_spec by lia. f_equal. lia.
Qed.
Lemma mask_fits_iff t : forall mask, mask_fits mask t = true <->
  forall i, (i < length t)%nat -> Z.testbit mask (Z.of_nat i) = true -> fst (nth i t (0, false)) <> 0.
Proof.
  induction t as [|e t IH]; intro mask; cbn [mask_fits].
  { split; [intros _ i Hi; cbn in Hi; lia|reflexivity]. }
  rewrite andb_true_iff, IH. split.
  - intros [H1 H2] i Hi Hb. destruct i as [|i]; cbn [nth].
    + rewrite Z.bit0_odd in Hb. rewrite Hb in H1. unfold defined in H1. lia.
    + apply H2; [cbn in Hi; lia|]. rewrite <- Z.div2_div, Z.div2_spec, Z.shiftr_spec by lia. rewrite <- Hb. f_equal. lia.
  - intro H. split.
    + destruct (Z.odd mask) eqn:Eo; [|reflexivity]. specialize (H 0%nat). cbn [nth] in H. unfold defined.
      assert (fst e <> 0) by (apply H; [cbn; lia|rewrite Z.bit0_odd; exact Eo]). lia.
    + intros i Hi Hb. apply (H (S i)); [cbn; lia|]. rewrite <- Z.div2_div, Z.div2_spec, Z.shiftr_spec in Hb by lia. rewrite <- Hb. f_equal. lia.
Qed.
