(** LAdr.v -- the ADR counter and the session data rate. *)
From Verif Require Export SpecAdr LCfg.

Inductive adr_case (E : env) (w : world) (o : op) (v : val) (es : list ev) (w' : world) : Prop :=
| AC_enable b : o = OAdrEnable b -> s_adr (w_st w') = set_ack_cnt 0 (set_adr_is_enabled b (s_adr (w_st w))) ->
    ses_dr (ses w') = ses_dr (ses w) -> es = [] -> adr_case E w o v es w'
| AC_setup l d : o = OAdrSetup l d -> s_adr (w_st w') = set_ack_delay d (set_ack_limit l (s_adr (w_st w))) ->
    ses_dr (ses w') = ses_dr (ses w) -> es = [] -> adr_case E w o v es w'
| AC_up f : is_uplink_call o = true -> data_frames [(o, v, es)] = [f] -> s_adr (w_st w') = r_uplink_adr (w_st w) ->
    ses_dr (ses w') = r_uplink_dr (w_st w) -> callbacks es = [] -> adr_case E w o v es w'
| AC_down m : o = OIrq m -> joining w = false -> handed_ok es = true ->
    s_adr (w_st w') = set_ack_cnt 0 (s_adr (w_st w)) -> data_frames [(o, v, es)] = [] -> adr_case E w o v es w'
| AC_join m : o = OIrq m -> joining w = true -> handed_ok es = true -> s_adr (w_st w') = s_adr (w_st w) ->
    data_frames [(o, v, es)] = [] -> adr_case E w o v es w'
| AC_ses : (exists r, o = OInit r) \/ (exists a u d n p, o = OSetSession a u d n p) \/ (exists d, o = OSetDr d) ->
    s_adr (w_st w') = s_adr (w_st w) -> data_frames [(o, v, es)] = [] -> callbacks es = [] -> adr_case E w o v es w'
| AC_same : s_adr (w_st w') = s_adr (w_st w) -> (existsb asks_adr (reads es) = false -> ses_dr (ses w') = ses_dr (ses w)) ->
    data_frames [(o, v, es)] = [] -> handed_ok es = false -> (forall b, o <> OAdrEnable b) -> adr_case E w o v es w'.

Lemma exec_keeps_dr x h c d : (match c with LinkADRReq _ _ _ _ _ => true | _ => false end) = false ->
  v_dr (fst (fst (mac_exec x h c d))) = v_dr d.
Proof.
  intro N. assert (A : forall a e, v_dr (fst (answer a e)) = v_dr e) by (intros; unfold answer; destruct (_ <=? _); reflexivity).
  destruct c; try discriminate N; cbn [mac_exec fst]; try reflexivity; rewrite ?A; try reflexivity;
    repeat match goal with |- context [match ?b with _ => _ end] => destruct b; cbn [fst]; rewrite ?A end; reflexivity.
Qed.
Lemma run_keeps_dr x cs : forall h d, existsb (fun c => match c with LinkADRReq _ _ _ _ _ => true | _ => false end) cs = false ->
  v_dr (fst (mac_run x h cs d)) = v_dr d.
Proof.
  induction cs as [|c cs IH]; intros h d N; [reflexivity|]. cbn [existsb] in N. apply orb_false_iff in N. destruct N as (N1 & N2).
  cbn [mac_run]. pose proof (exec_keeps_dr x h c d N1) as K. destruct (mac_exec x h c d) as [[d1 go] e1]. cbn [fst] in K. destruct go; [|exact K].
  specialize (IH (h ++ e1) d1 N2). destruct (mac_run x (h ++ e1) cs d1) as [d2 e2]. cbn [fst] in *. congruence.
Qed.
Lemma delivered_one es r t vw : callbacks es = [(r, t, vw)] -> handed_ok es = match r with ERR_NO => true | _ => false end.
Proof. intro C. unfold handed_ok. rewrite C. cbn. destruct r; reflexivity. Qed.
Lemma delivered_nil es : callbacks es = [] -> handed_ok es = false.
Proof. intro C. unfold handed_ok. rewrite C. reflexivity. Qed.

Lemma step_adr E w o v es w' : env_ok E -> Inv (w_st w) -> op_wf o -> step E w o = Some (v, es, w') -> adr_case E w o v es w'.
Proof.
  intros HE HI Hw H. pose proof (step_tx E w o v es w' HE HI Hw H) as T.
  assert (Df : tx_frames es = [] -> data_frames [(o, v, es)] = []) by (intro A; unfold data_frames; cbn [flat_map fst snd]; rewrite app_nil_r; destruct o; congruence).
  assert (Hu : is_uplink_call o = true \/ o = OJoin -> callbacks es = [] -> adr_case E w o v es w').
  { intros U Cb. destruct T as [p d c h1 s1 S|A B C D F G|A B].
    - destruct (sent_obs _ _ _ _ _ _ _ _ _ _ _ _ S) as (S1 & _). destruct S as [Hc _ _ (cc & ->) _ _ _ _ Hst _ _ _ _].
      apply (AC_up _ _ _ _ _ _ (send_frame_bytes E p d c (on_cs (fun _ => cc) (w_st w))) Hc); [|rewrite Hst; reflexivity|unfold ses; rewrite Hst; reflexivity|exact Cb].
      unfold data_frames. cbn [flat_map fst snd]. rewrite app_nil_r, S1. destruct o; try reflexivity; discriminate Hc.
    - apply AC_same; [rewrite F; reflexivity|unfold ses; rewrite F; reflexivity|subst o; reflexivity|apply delivered_nil; exact Cb|subst o; discriminate].
    - destruct (B U) as (_ & B1 & cc & B2). apply AC_same; [rewrite B2; reflexivity|unfold ses; rewrite B1; reflexivity|auto|apply delivered_nil; exact Cb|].
      intros b ->. destruct U as [U|U]; discriminate U. }
  assert (Cb : (forall m, o <> OIrq m) -> callbacks es = []).
  { intro N. rewrite <- callbacks_link. destruct (step_win E w o v es w' HE HI Hw H) as [r A B C|fr pw f A B C D F G K1 K2 _|m ts A B C D F G K _|m A B C D F G K _|m pre rd e t vw A B C D N1 N2 F G J _|t A B C D F|A B N1 N2 N3 N4];
      try (exfalso; exact (N _ A)); [rewrite B|rewrite F|rewrite F|rewrite A]; reflexivity. }
  pose proof H as H0. apply step_inv in H0; try assumption.
  destruct (match o with OIrq _ => true | _ => false end) eqn:Io.
  - destruct o as [| | | | | | | | | | | | | | | | | | | | | | |m| | | | |]; try discriminate Io. clear H0.
    assert (Tx : tx_frames es = []) by (destruct T as [p d c h1 s1 S|A B C D F G|A B]; [destruct S as [S _ _ _ _ _ _ _ _ _ _ _ _]; discriminate S|discriminate A|exact A]).
    destruct (recv_dec w m) as [R|R].
    + destruct (joining w) eqn:J.
      * destruct (join_outcome E w m v es w' HE HI H R J) as [r vw A B _ _ _ C G K|rg vw A B C G Dd F].
        -- destruct K as (_ & K1 & _ & K2 & _). apply AC_same; [exact K1|congruence|auto|rewrite (delivered_one _ _ _ _ C); destruct r; congruence|discriminate].
        -- apply (AC_join _ _ _ _ _ _ m eq_refl J); [apply (delivered_one _ _ _ _ C)|rewrite F; reflexivity|auto].
      * destruct (data_outcome E w m v es w' HE HI H R J) as [r t vw A1 A2 A3 A4 A5 K|r c t vw A1 A2 A3 A4 A5 A6 A7 A8 A9 A10 A11 A12].
        -- destruct K as (_ & K1 & _ & K2 & _). apply AC_same; [exact K1|intros _; rewrite K2; reflexivity|auto|rewrite (delivered_one _ _ _ _ A4); destruct r; congruence|discriminate].
        -- destruct A6 as [(-> & _ & _ & _ & Q)|(-> & _ & Q)].
           ++ apply (AC_down _ _ _ _ _ _ m eq_refl J); [apply (delivered_one _ _ _ _ A7)|exact Q|auto].
           ++ apply AC_same; [exact Q| |auto|apply (delivered_one _ _ _ _ A7)|discriminate].
              rewrite (irq_reads E w m v es w' HE HI Hw H R). cbn [existsb]. rewrite orb_false_r. intro N.
              change (v_dr (dev_w w') = v_dr (dev_w w)). apply (f_equal fst) in A12. cbn [fst] in A12. rewrite A12. apply run_keeps_dr. exact N.
    + destruct (norx_step E w m v es w' HE HI H R) as [Q1 _ Q2 _ _ Q3 _ _ _]. apply AC_same; [exact Q2|congruence|auto| |discriminate].
      destruct Q3 as [Q3|(e & Ne & Q3)]; [apply delivered_nil; exact Q3|rewrite (delivered_one _ _ _ _ Q3); destruct e; congruence].
  - assert (Cn : callbacks es = []) by (apply Cb; intros m ->; discriminate Io). clear Cb.
    assert (Un : is_uplink_call o = false -> o <> OJoin -> tx_frames es = []).
    { intros U1 U2. destruct T as [p d c h1 s1 S|A B C D F G|A B]; [destruct S; congruence|contradiction|exact A]. }
    assert (Ss : s_adr (w_st w') = s_adr (w_st w) -> ses w' = ses w -> is_uplink_call o = false -> o <> OJoin -> (forall b, o <> OAdrEnable b) -> adr_case E w o v es w').
    { intros S1 S2 S3 S4 S5. apply AC_same; [exact S1|congruence|auto|apply delivered_nil; exact Cn|exact S5]. }
    unfold ses in *. remember (w_st w') as s' eqn:Es'. destruct H0; try (apply Hu; auto; fail).
    + destruct o; cbn [simple] in H0; try discriminate H0;
        try (repeat match type of H0 with context [if ?b then _ else _] => destruct b end; injection H0 as H0a H0b; apply Ss; (rewrite <- H0b; reflexivity) || reflexivity || discriminate; fail).
      * injection H0 as H0a H0b. apply AC_ses; [eauto 10|rewrite <- Es', <- H0b; reflexivity|reflexivity|reflexivity].
      * injection H0 as H0a H0b. apply AC_ses; [eauto 10|rewrite <- Es', <- H0b; destruct (dr <? 6); reflexivity|reflexivity|reflexivity].
      * injection H0 as H0a H0b. apply (AC_enable _ _ _ _ _ _ enable eq_refl); [rewrite <- Es', <- H0b; reflexivity|unfold ses; rewrite <- Es', <- H0b; reflexivity|reflexivity].
      * injection H0 as H0a H0b. apply (AC_setup _ _ _ _ _ _ limit delay eq_refl); [rewrite <- Es', <- H0b; reflexivity|unfold ses; rewrite <- Es', <- H0b; reflexivity|reflexivity].
    + apply AC_ses; [eauto|rewrite <- Es'; reflexivity|auto|exact Cn].
    + apply Ss; try reflexivity; discriminate.
    + apply Ss; try reflexivity; try discriminate; rewrite H0; reflexivity.
Qed.

Lemma uplink_adr_bits E p d c s : Inv s -> fr_adr (send_frame_bytes E p d c s) = adr_is_enabled (s_adr s) /\
  fr_adr_req (send_frame_bytes E p d c s) = up_req s.
Proof.
  intro HI. unfold fr_adr, fr_adr_req, send_frame_bytes.
  assert (A : at_ (uplink_frame (e_aes E) (e_cmac E) (nwk_s_key (s_ses s)) (app_s_key (s_ses s)) (dev_addr (s_ses s))
    (f_cnt_up (s_ses s)) c (adr_is_enabled (s_adr s)) (up_req s) (ack_required (s_ses s)) (queue (s_mac s)) p d) 5
    = up_fctrl (adr_is_enabled (s_adr s)) (up_req s) (ack_required (s_ses s)) (queue (s_mac s))) by reflexivity.
  rewrite A. unfold up_fctrl. edestruct fctrl_bits as (_ & B & C & _); [|split; [exact B|exact C]].
  rewrite queue_len by apply HI. pose proof (iv_mac _ HI) as K. destruct K. lia.
Qed.
Lemma step_bits E w o v es w' f : env_ok E -> Inv (w_st w) -> op_wf o -> step E w o = Some (v, es, w') ->
  data_frames [(o, v, es)] = [f] -> fr_adr f = adr_on w /\ fr_adr_req f = adr_ack_due w.
Proof.
  intros HE HI Hw H Hf. pose proof (step_tx E w o v es w' HE HI Hw H) as T.
  unfold data_frames in Hf. cbn [flat_map fst snd] in Hf. rewrite app_nil_r in Hf.
  destruct T as [p d c h1 s1 S|A B C D F G|A B].
  - destruct (sent_obs _ _ _ _ _ _ _ _ _ _ _ _ S) as (Ht & _). destruct S as [Hcall _ _ Hsame _ _ _ _ Hst _ _ HI1 _].
    assert (f = send_frame_bytes E p d c s1) by (destruct o; try discriminate Hcall; congruence). subst f.
    destruct (uplink_adr_bits E p d c s1 HI1) as (B1 & B2). rewrite B1, B2. destruct Hsame as (cc & ->).
    split; reflexivity.
  - subst o. discriminate.
  - destruct o; congruence.
Qed.

Lemma counted_reach E tr w n : env_ok E -> counted E tr w n -> reachable E w.
Proof.
  intros HE Hc. induction Hc as [|tr w n o v es w' Hc IH Hw Hs].
  - exists [], []. split; constructor.
  - eapply step_reach; eassumption.
Qed.
Lemma is_up_yes t f : data_frames [t] = [f] -> is_data_uplink t = true.
Proof. unfold is_data_uplink. intros ->. reflexivity. Qed.
Lemma is_up_no t : data_frames [t] = [] -> is_data_uplink t = false.
Proof. unfold is_data_uplink. intros ->. reflexivity. Qed.

(** the counter of the stack counts modulo 2^32 *)
Lemma counted_cnt E tr w n : env_ok E -> counted E tr w n -> 0 <= n /\ ack_cnt (s_adr (w_st w)) = n mod 4294967296.
Proof.
  intros HE Hc. induction Hc as [|tr w n o v es w' Hc (IH1 & IH2) Hw Hs]; [split; [lia|reflexivity]|].
  pose proof (reach_Inv E w HE (counted_reach _ _ _ _ HE Hc)) as HI.
  destruct (step_adr E w o v es w' HE HI Hw Hs) as [b A B C D|l d A B C D|f U A B C D|m A J B C D|m A J B C D|A B C D|A B C D F].
  - subst o. cbn [restarts]. rewrite B. split; [lia|reflexivity].
  - subst o es. cbn [restarts is_data_uplink data_frames flat_map tx_frames fst snd app]. rewrite B. auto.
  - assert (R : restarts w (o, v, es) = false) by (destruct o; try reflexivity; discriminate U). rewrite R, (is_up_yes _ _ A), B, C.
    unfold r_uplink_adr, r_uplink_dr, ses. cbn [ack_cnt set_ack_cnt].
    destruct (backs_off (w_st w)).
    + replace (ses_dr (s_ses (w_st w)) - 1 =? ses_dr (s_ses (w_st w))) with false by lia. split; [lia|reflexivity].
    + rewrite Z.eqb_refl. split; [lia|]. unfold u32. rewrite IH2, Z.add_mod_idemp_l by lia. reflexivity.
  - subst o. cbn [restarts]. rewrite J, B, C. cbn [negb andb]. split; [lia|reflexivity].
  - subst o. cbn [restarts]. rewrite J, C. cbn [negb andb]. rewrite (is_up_no _ D). auto.
  - assert (R : restarts w (o, v, es) = false) by (destruct A as [(? & ->)|[(? & ? & ? & ? & ? & ->)|(? & ->)]]; reflexivity).
    rewrite R, (is_up_no _ C), B. auto.
  - assert (R : restarts w (o, v, es) = false) by (destruct o; try reflexivity; cbn [restarts]; [exfalso; exact (F _ eq_refl)|rewrite D; apply andb_false_r]).
    rewrite R, (is_up_no _ C), A. auto.
Qed.

(** the back-off as a function of the number of uplinks *)
Definition backed (P dr0 n : Z) (w : world) : Prop :=
  adr_limit w + adr_delay w + 1 = P /\
  (n / P < dr0 -> ses_dr (ses w) = dr0 - n / P /\ ack_cnt (s_adr (w_st w)) = n mod P) /\
  (dr0 <= n / P -> ses_dr (ses w) = 0).
Lemma div_step n P : 0 < P -> 0 <= n ->
  (n mod P = P - 1 -> (n + 1) / P = n / P + 1 /\ (n + 1) mod P = 0) /\
  (n mod P <> P - 1 -> (n + 1) / P = n / P /\ (n + 1) mod P = n mod P + 1).
Proof.
  intros Hp Hn. pose proof (Z.div_mod n P ltac:(lia)) as D. pose proof (Z.mod_pos_bound n P Hp) as B. split; intro C.
  - assert (E1 : n + 1 = P * (n / P + 1) + 0) by (rewrite C in D; lia).
    split; [symmetry; apply (Z.div_unique_pos (n + 1) P (n / P + 1) 0); lia|symmetry; apply (Z.mod_unique_pos (n + 1) P (n / P + 1) 0); lia].
  - assert (E1 : n + 1 = P * (n / P) + (n mod P + 1)) by lia.
    split; [symmetry; apply (Z.div_unique_pos (n + 1) P (n / P) (n mod P + 1)); lia|symmetry; apply (Z.mod_unique_pos (n + 1) P (n / P) (n mod P + 1)); lia].
Qed.
Lemma backed_step E w o v es w' P dr0 n : env_ok E -> Inv (w_st w) -> op_wf o -> step E w o = Some (v, es, w') ->
  adr_entry (o, v, es) = false -> 0 <= n -> 0 <= dr0 -> backed P dr0 n w ->
  backed P dr0 (n + number (data_frames [(o, v, es)])) w'.
Proof.
  intros HE HI Hw Hs Hq Hn Hd (B1 & B2 & B3).
  assert (Hp : 0 < P <= 511) by (destruct (iv_adr _ HI) as [_ L D]; unfold adr_limit, adr_delay in B1; unfold is_byte in *; lia).
  assert (Same : s_adr (w_st w') = s_adr (w_st w) -> ses_dr (ses w') = ses_dr (ses w) -> data_frames [(o, v, es)] = [] ->
    backed P dr0 (n + number (data_frames [(o, v, es)])) w').
  { intros S1 S2 S3. rewrite S3. unfold number. cbn [length Z.of_nat]. rewrite Z.add_0_r.
    unfold backed, adr_limit, adr_delay. rewrite S1, S2. split; [exact B1|split; [exact B2|exact B3]]. }
  destruct (step_adr E w o v es w' HE HI Hw Hs) as [b A B C D|l d A B C D|f U A B C D|m A J B C D|m A J B C D|A B C D|A B C D F].
  - subst o. discriminate Hq.
  - subst o. discriminate Hq.
  - rewrite A. unfold number. cbn [length Z.of_nat]. change (Z.pos _) with 1.
    assert (L : adr_limit w' + adr_delay w' + 1 = P) by (unfold adr_limit, adr_delay; rewrite B; exact B1).
    split; [exact L|]. destruct (div_step n P ltac:(lia) Hn) as (Y1 & Y2). pose proof (Z.mod_pos_bound n P ltac:(lia)) as Mb.
    rewrite B, C. unfold r_uplink_adr, r_uplink_dr, backs_off. cbn [ack_cnt set_ack_cnt]. fold (ses w).
    fold (adr_limit w). fold (adr_delay w). replace (adr_limit w + adr_delay w) with (P - 1) by lia.
    destruct (Z_lt_ge_dec (n / P) dr0) as [Lt|Ge].
    + destruct (B2 Lt) as (V1 & V2). rewrite V1, V2. unfold u32. rewrite Z.mod_small by lia.
      replace (dr0 - n / P =? 0) with false by lia. cbn [negb andb].
      destruct (Z.eq_dec (n mod P) (P - 1)) as [Q|Q].
      * destruct (Y1 Q) as (Z1 & Z2). rewrite Z1, Z2, Q. replace (P - 1 <? P - 1 + 1) with true by lia. split; intros; [split|]; lia.
      * destruct (Y2 Q) as (Z1 & Z2). rewrite Z1, Z2. replace (P - 1 <? n mod P + 1) with false by lia. split; intros; [split|]; lia.
    + rewrite (B3 ltac:(lia)). change (0 =? 0) with true. cbn [negb andb].
      assert (Mo : n / P <= (n + 1) / P) by (apply Z.div_le_mono; lia). split; intros; [lia|reflexivity].
  - subst o. cbn [adr_entry] in Hq. rewrite B in Hq. discriminate Hq.
  - subst o. cbn [adr_entry] in Hq. rewrite B in Hq. discriminate Hq.
  - destruct A as [(? & ->)|[(? & ? & ? & ? & ? & ->)|(? & ->)]]; discriminate Hq.
  - apply Same; try assumption. apply B. destruct o; cbn [adr_entry] in Hq; try discriminate Hq; apply orb_false_iff in Hq; apply Hq.
Qed.
Lemma backed_exec E w ops tr w' : env_ok E -> exec E w ops tr w' -> forall P dr0 n, Inv (w_st w) -> Forall op_wf ops ->
  Forall (fun t => adr_entry t = false) tr -> 0 <= n -> 0 <= dr0 -> backed P dr0 n w ->
  backed P dr0 (n + number (data_frames tr)) w'.
Proof.
  intros HE Hx. induction Hx as [w|w o ops v es w1 tr w2 Hs Hx IH]; intros P dr0 n HI Ho Hq Hn Hd HB.
  - unfold number. cbn. rewrite Z.add_0_r. exact HB.
  - inversion Ho; subst. inversion Hq; subst.
    pose proof (backed_step E w o v es w1 P dr0 n HE HI ltac:(assumption) Hs ltac:(assumption) Hn Hd HB) as K.
    assert (HI1 : Inv (w_st w1)) by (eapply step_Inv; eassumption).
    specialize (IH P dr0 (n + number (data_frames [(o, v, es)])) HI1 ltac:(assumption) ltac:(assumption) ltac:(unfold number; lia) Hd K).
    replace (n + number (data_frames ((o, v, es) :: tr))) with (n + number (data_frames [(o, v, es)]) + number (data_frames tr)); [exact IH|].
    unfold number, data_frames. cbn [flat_map]. rewrite !app_length. cbn [length]. lia.
Qed.
