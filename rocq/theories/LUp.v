(** LUp.v -- what the transmitting calls show to the outside (proof
    infrastructure for the uplink and join properties). *)
From Verif Require Export LStep SpecApi.

(** ** Observers and lists *)
Lemma tx_frames_app a b : tx_frames (a ++ b) = tx_frames a ++ tx_frames b.
Proof. induction a as [|e a IH]; [reflexivity|]. destruct e; cbn [app tx_frames]; rewrite IH; reflexivity. Qed.
Lemma callbacks_app a b : callbacks (a ++ b) = callbacks a ++ callbacks b.
Proof. induction a as [|e a IH]; [reflexivity|]. destruct e; cbn [app callbacks]; rewrite IH; reflexivity. Qed.
Lemma freqs_app a b : freqs (a ++ b) = freqs a ++ freqs b.
Proof. induction a as [|e a IH]; [reflexivity|]. destruct e; cbn [app freqs]; rewrite IH; reflexivity. Qed.
Lemma setups_app a b : setups (a ++ b) = setups a ++ setups b.
Proof. induction a as [|e a IH]; [reflexivity|]. destruct e; cbn [app setups]; rewrite IH; reflexivity. Qed.
Lemma powers_app a b : powers (a ++ b) = powers a ++ powers b.
Proof. induction a as [|e a IH]; [reflexivity|]. destruct e; cbn [app powers]; rewrite IH; reflexivity. Qed.

(** events of no interest to any of the observers *)
Definition is_quiet (e : ev) : bool :=
  match e with RTx _ | CbDown _ _ _ | RSetFreq _ | RSetup _ | RSetPower _ | TStart _ _ | TStop _ | RRx _ _ _ | RSleep => false | _ => true end.
Lemma quiet_obs es : Forall (fun e => is_quiet e = true) es ->
  tx_frames es = [] /\ callbacks es = [] /\ freqs es = [] /\ setups es = [] /\ powers es = [].
Proof.
  induction 1 as [|e es He Hf (I1 & I2 & I3 & I4 & I5)]; [auto|].
  destruct e; try discriminate; cbn; auto.
Qed.
Definition is_crypto (e : ev) : bool :=
  match e with CAesNew _ | CAesEnc _ | CAesDel | CCmacNew _ | CCmacUpd _ | CCmacFin | CCmacDel => true | _ => false end.
Lemma crypto_quiet es : Forall (fun e => is_crypto e = true) es -> Forall (fun e => is_quiet e = true) es.
Proof. apply Forall_impl. intros []; cbn; congruence. Qed.
Lemma mac_quiet es : Forall (fun e => is_mac_ev e = true) es -> Forall (fun e => is_quiet e = true) es.
Proof. apply Forall_impl. intros []; cbn; congruence. Qed.
Lemma cs_quiet es : Forall (fun e => is_cs_ev e = true) es -> Forall (fun e => is_quiet e = true) es.
Proof. apply Forall_impl. intros []; cbn; congruence. Qed.

Lemma rand_quiet E h s : Forall (fun e => is_quiet e = true) (rand_evs E h s).
Proof. unfold rand_evs. destruct (_ =? 0); repeat constructor. Qed.
Lemma enc_evs_crypto dir addr cnt n : forall i, Forall (fun e => is_crypto e = true) (enc_evs dir addr cnt i n).
Proof. induction n; intro i; cbn [enc_evs]; constructor; auto. Qed.
Lemma crypt_evs_crypto key dir addr cnt n : Forall (fun e => is_crypto e = true) (crypt_evs key dir addr cnt n).
Proof. unfold crypt_evs. constructor; [reflexivity|]. apply Forall_app. split; [apply enc_evs_crypto|repeat constructor]. Qed.
Lemma mic_evs_crypto key p m : Forall (fun e => is_crypto e = true) (mic_evs key p m).
Proof. unfold mic_evs. destruct p; repeat constructor. Qed.
Lemma key_evs_crypto key k a n d : Forall (fun e => is_crypto e = true) (key_evs key k a n d).
Proof. repeat constructor. Qed.
Lemma ja_evs_crypto E key d : Forall (fun e => is_crypto e = true) (ja_evs E key d).
Proof.
  unfold ja_evs. constructor; [reflexivity|]. constructor; [reflexivity|]. apply Forall_app. split.
  - destruct (_ =? 33); repeat constructor.
  - constructor; [reflexivity|]. apply mic_evs_crypto.
Qed.

(** ** Transmissions *)
Lemma send_obs E h p d c s :
  let es := send_events E h p d c s in
  tx_frames es = [send_frame_bytes E p d c s] /\ callbacks es = [] /\ freqs es = [next_freq E h s] /\
  setups es = [tx_params (cur_dr s) (pkt_params (s_stk s))] /\ powers es = [p_power s].
Proof.
  cbv zeta. unfold send_events.
  destruct (quiet_obs _ (rand_quiet E h s)) as (A1 & A2 & A3 & A4 & A5).
  set (X := if len d =? 0 then [] else _).
  assert (HX : Forall (fun e => is_quiet e = true) X)
    by (unfold X; destruct (_ =? 0); [constructor|apply crypto_quiet, crypt_evs_crypto]).
  destruct (quiet_obs _ HX) as (B1 & B2 & B3 & B4 & B5).
  set (Y := mic_evs _ _ _). destruct (quiet_obs Y (crypto_quiet _ (mic_evs_crypto _ _ _))) as (C1 & C2 & C3 & C4 & C5).
  rewrite !tx_frames_app, !callbacks_app, !freqs_app, !setups_app, !powers_app.
  rewrite A1, A2, A3, A4, A5, B1, B2, B3, B4, B5, C1, C2, C3, C4, C5. repeat split.
Qed.
Lemma join_obs E h s :
  let es := join_events E h s in
  tx_frames es = [join_bytes E (join_nonce E h s) s] /\ callbacks es = [] /\ freqs es = [next_freq E h s] /\
  setups es = [tx_params (default_dr (s_stk s)) (pkt_params (s_stk s))] /\ powers es = [p_power s].
Proof.
  cbv zeta. unfold join_events. cbv zeta.
  destruct (quiet_obs _ (rand_quiet E h s)) as (A1 & A2 & A3 & A4 & A5).
  set (Y := mic_evs _ _ _). destruct (quiet_obs Y (crypto_quiet _ (mic_evs_crypto _ _ _))) as (C1 & C2 & C3 & C4 & C5).
  rewrite !tx_frames_app, !callbacks_app, !freqs_app, !setups_app, !powers_app.
  rewrite A1, A2, A3, A4, A5, C1, C2, C3, C4, C5. repeat split.
Qed.

(** a data uplink, sent by any of the three calls that can *)
Definition same_but_cs (s1 s : st) : Prop := exists c, s1 = on_cs (fun _ => c) s.
Lemma same_refl s : same_but_cs s s.
Proof. exists (s_cs s). destruct s; reflexivity. Qed.
Lemma same_req s : same_but_cs (cs_req_st s) s.
Proof. eexists. destruct s; reflexivity. Qed.

Record sent (E : env) (h : list ev) (s : st) (o : op) (v : val) (es : list ev) (s' : st)
    (p : Z) (d : list Z) (c : bool) (h1 : list ev) (s1 : st) : Prop := Mk_sent {
  sn_call : is_uplink_call o = true;
  sn_val : v = VErr ERR_NO;
  sn_pre : (h1 = h /\ es = send_events E h1 p d c s1) \/
           (exists t, h1 = h ++ [KUnixtime t] /\ es = KUnixtime t :: send_events E h1 p d c s1);
  sn_same : same_but_cs s1 s;
  sn_idle : uw_state (s_stk s1) = IDLE;
  sn_freq : next_freq E h1 s1 <> 0;
  sn_len : len d <= p_max s1;
  sn_some : ~ (len d = 0 /\ mac_buf_pos (s_mac s1) = 0);
  sn_st : s' = send_state (send_frame_bytes E p d c s1) s1;
  sn_port : is_byte p;
  sn_bytes : bytes_ok d;
  sn_Inv : Inv s1;
  sn_arg : forall p' d' c', o = OSend p' d' c' -> p' = p /\ d' = d /\ c' = c /\ h1 = h /\ s1 = s
}.
Lemma sent_obs E h s o v es s' p d c h1 s1 : sent E h s o v es s' p d c h1 s1 ->
  tx_frames es = [send_frame_bytes E p d c s1] /\ callbacks es = [] /\ freqs es = [next_freq E h1 s1] /\
  setups es = [tx_params (cur_dr s1) (pkt_params (s_stk s1))] /\ powers es = [p_power s1].
Proof.
  intros []. destruct (send_obs E h1 p d c s1) as (A1 & A2 & A3 & A4 & A5).
  destruct sn_pre0 as [(_ & ->)|(t & _ & ->)]; cbn [tx_frames callbacks freqs setups powers]; auto.
Qed.

(** case analysis on the outcome inductives without unfolding their events *)
Lemma Ok_inj {A S E} (a a' : A) (s s' : S) (e e' : list E) :
  Ok (a, s, e) = Ok (a', s', e') -> a = a' /\ s = s' /\ e = e'.
Proof. intro H. injection H as -> -> ->. auto. Qed.
Ltac inv_ok H :=
  match type of H with
  | _ (Ok ?t) =>
      let x := fresh "x" in let Ex := fresh "Ex" in
      let E1 := fresh "Er" in let E2 := fresh "Es" in let E3 := fresh "Ee" in
      remember (Ok t) as x eqn:Ex in H; destruct H; try discriminate Ex;
      apply Ok_inj in Ex; destruct Ex as (E1 & E2 & E3); subst
  end.

(** events of a radio interrupt or other call never transmit *)
Lemma ja_quiet E d s r s2 es : ja_cases E d s (Ok (r, s2, es)) -> Forall (fun e => is_crypto e = true) es.
Proof.
  intro H. inv_ok H; [apply Forall_nil|apply Forall_nil|apply ja_evs_crypto|].
  apply Forall_app. split; [apply ja_evs_crypto|]. apply Forall_app. split; apply key_evs_crypto.
Qed.
Lemma data_quiet E d rs sn h s r s2 es : env_ok E -> e_strict_shl E = false -> Inv s -> uw_region (s_stk s) <> None ->
  bytes_ok d -> -128 <= sn < 128 ->
  data_cases E d rs sn h s (Ok (r, s2, es)) -> Forall (fun e => is_quiet e = true) es.
Proof.
  intros HE Hns HI Hr Hd Hsn H.
  assert (Hq : forall c, new_cnt (f_cnt_down (s_ses s)) (g16 d 6) = Some c ->
     Forall (fun e => is_quiet e = true) (snd (d_cmds E h d sn c s))).
  { intros c Hc. apply mac_quiet. apply d_cmds_facts; auto. eapply new_cnt_range; [|exact Hc]. apply g16_range. exact Hd. }
  inv_ok H; try apply Forall_nil; rewrite ?Forall_app.
  - split; [auto|]. apply crypto_quiet, mic_evs_crypto.
  - split; [auto|]. split; [apply crypto_quiet, mic_evs_crypto|]. unfold d_dec_evs. destruct (_ <=? 1); [apply Forall_nil|apply crypto_quiet, crypt_evs_crypto].
Qed.

(** the events of handle_downlink: read, sleep, quiet ones, one callback *)
Lemma dl_shape E h s s' es : env_ok E -> e_strict_shl E = false -> Inv s -> uw_region (s_stk s) <> None ->
  dl_cases E h s (Ok (tt, s', es)) ->
  exists q r t v, es = RRead (e_pkt E h) :: RSleep :: q ++ [CbDown r t v] /\ Forall (fun e => is_quiet e = true) q.
Proof.
  intros HE Hns HI Hr H.
  assert (HI1 : Inv (rx_state (rx_data (e_pkt E h)) s))
    by (apply rx_state_Inv; [exact HI|apply (ok_pkt_byte E HE)|apply (ok_pkt_len E HE)]).
  inversion H; subst.
  - do 4 eexists. split; [reflexivity|]. apply crypto_quiet. eapply ja_quiet. eassumption.
  - do 4 eexists. split; [reflexivity|]. eapply data_quiet; [exact HE|exact Hns|exact HI1|exact Hr| | |eassumption].
    + apply (ok_pkt_byte E HE).
    + apply (ok_pkt_snr E HE).
Qed.
Lemma idle_region s : Inv s -> uw_state (s_stk s) <> NOT_INIT -> uw_region (s_stk (idle_state s)) <> None.
Proof. intros HI Hn. apply (tk_init _ (iv_stk _ HI) Hn). Qed.

Lemma irq_tx E m h s s' es : env_ok E -> e_strict_shl E = false -> Inv s ->
  irq_cases E m h s (Ok (tt, s', es)) -> tx_frames es = [] /\ powers es = [].
Proof.
  intros HE Hns HI H. inv_ok H; try (split; reflexivity).
  - unfold tx_done_evs, tx_done_evs1, tx_done_time. cbn [app tx_frames powers].
    destruct (mac_save_dev_time _); [|split; reflexivity]. destruct (mac_cbs _) as [c|]; [|split; reflexivity].
    destruct (has_get_device_time c); split; reflexivity.
  - match goal with H : dl_cases _ _ _ _ |- _ =>
      destruct (dl_shape E _ _ _ _ HE Hns (idle_Inv s HI ltac:(congruence)) (idle_region s HI ltac:(congruence)) H)
        as (q & r & t & v & -> & Hq) end.
    destruct (quiet_obs _ Hq) as (A1 & A2 & A3 & A4 & A5).
    cbn [tx_frames powers]. rewrite tx_frames_app, powers_app, A1, A5. split; reflexivity.
  - match goal with H : dl_cases _ _ _ _ |- _ =>
      destruct (dl_shape E _ _ _ _ HE Hns (idle_Inv s HI ltac:(congruence)) (idle_region s HI ltac:(congruence)) H)
        as (q & r & t & v & -> & Hq) end.
    destruct (quiet_obs _ Hq) as (A1 & A2 & A3 & A4 & A5).
    cbn [tx_frames powers]. rewrite tx_frames_app, powers_app, A1, A5. split; reflexivity.
Qed.

(** Every call: it transmits a data uplink, a join-request, or nothing. *)
Inductive tx_class (E : env) (h : list ev) (s : st) (o : op) (v : val) (es : list ev) (s' : st) : Prop :=
| T_data p d c h1 s1 : sent E h s o v es s' p d c h1 s1 -> tx_class E h s o v es s'
| T_join : o = OJoin -> v = VErr ERR_NO -> uw_state (s_stk s) = IDLE -> next_freq E h s <> 0 ->
    s' = join_state (join_bytes E (join_nonce E h s) s) (join_nonce E h s) s -> es = join_events E h s ->
    tx_class E h s o v es s'
| T_none : tx_frames es = [] -> (is_uplink_call o = true \/ o = OJoin -> v <> VErr ERR_NO /\ s_ses s' = s_ses s /\
     same_but_cs s' s) -> tx_class E h s o v es s'.

Lemma send_class E p d c h s h1 s1 e s' es o v es1 : Inv s1 -> is_byte p -> bytes_ok d -> same_but_cs s1 s ->
  is_uplink_call o = true -> v = VErr e ->
  (h1 = h /\ es1 = es \/ exists t, h1 = h ++ [KUnixtime t] /\ es1 = KUnixtime t :: es) ->
  (forall p' d' c', o = OSend p' d' c' -> p' = p /\ d' = d /\ c' = c /\ h1 = h /\ s1 = s) ->
  send_cases E p d c h1 s1 (Ok (e, s', es)) -> tx_class E h s o v es1 s'.
Proof.
  intros HI Hp Hd Hs Ho -> He Ha H.
  assert (Hn : tx_frames es = [] -> tx_frames es1 = [])
    by (intro; destruct He as [(_ & ->)|(t & _ & ->)]; assumption).
  destruct (quiet_obs _ (rand_quiet E h1 s1)) as (A1 & _).
  assert (Hx : s_ses s1 = s_ses s) by (destruct Hs as (cc & ->); reflexivity).
  inv_ok H.
  - apply T_none; [apply Hn; reflexivity|]. intros _. split; [discriminate|]. auto.
  - apply T_none; [apply Hn; exact A1|]. intros _. split; [discriminate|]. auto.
  - apply T_none; [apply Hn; exact A1|]. intros _. split; [discriminate|]. auto.
  - eapply (T_data _ _ _ _ _ _ _ p d c h1 s1). constructor; auto.
Qed.

Lemma step_tx E w o v es w' : env_ok E -> Inv (w_st w) -> op_wf o -> step E w o = Some (v, es, w') ->
  tx_class E (w_hist w) (w_st w) o v es (w_st w').
Proof.
  intros HE HI Hw H. apply step_inv in H; try assumption. destruct H.
  - apply T_none; [reflexivity|]. destruct o; cbn [simple] in H; try discriminate; intros [A|A]; discriminate.
  - apply T_none; [reflexivity|]. intros [A|A]; discriminate.
  - inversion H; subst.
    + apply T_none; [reflexivity|]. intros _. split; [discriminate|]. split; [reflexivity|apply same_refl].
    + apply T_none; [apply (quiet_obs _ (rand_quiet E (w_hist w) (w_st w)))|].
      intros _. split; [discriminate|]. split; [reflexivity|apply same_refl].
    + apply T_join; auto.
  - destruct Hw as (W1 & W2 & W3).
    eapply (send_class E p d c (w_hist w) (w_st w) (w_hist w) (w_st w)); eauto.
    + apply same_refl.
    + intros p' d' c' A. injection A as -> -> ->. auto.
  - apply T_none; [unfold timer_evs; destruct (uw_state _), t; reflexivity|]. intros [A|A]; discriminate.
  - apply T_none; [eapply irq_tx; [apply relax_ok; exact HE|reflexivity|exact HI|exact H]|]. intros [A|A]; discriminate.
  - apply T_none; [apply (quiet_obs _ (cs_quiet _ H1))|]. intros [A|A]; discriminate.
  - apply T_none; [reflexivity|]. intros _. split; [congruence|]. split; [reflexivity|apply same_refl].
  - destruct (cs_req_payload_ok E a (w_hist w) (w_st w) HE HI) as [P1 P2].
    eapply (send_class E CS_PORT _ false (w_hist w) (w_st w) _ (cs_req_st (w_st w))); eauto.
    + apply cs_req_Inv. exact HI.
    + cbv; intuition discriminate.
    + apply same_req.
    + intros; discriminate.
  - apply T_none; [reflexivity|]. intros _. split; [congruence|]. split; [reflexivity|apply same_refl].
  - destruct (cs_answer_ok (w_st w) HI) as [P1 P2].
    eapply (send_class E CS_PORT _ false (w_hist w) (w_st w) _ (w_st w)); eauto.
    + cbv; intuition discriminate.
    + apply same_refl.
    + intros; discriminate.
Qed.
