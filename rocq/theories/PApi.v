(** PApi.v -- outcome of the remaining API calls, the invariant of every
    reachable state, and where undefined behaviour can come from (proof
    infrastructure). *)
From Verif Require Export PClock2.

(** ** Calls that make no external call *)
Definition simple (o : op) (s : st) : option (val * st) :=
  match o with
  | OSetOtaa d a k => Some (VUnit, on_stk (fun x => set_uw_app_key k (set_uw_app_eui a (set_uw_dev_eui d x))) s)
  | OSetSession a u d n p => Some (VUnit, with_ses (new_session (default_dr (s_stk s)) a u d n p) s)
  | OIsJoined => Some (VBool (is_joined (s_ses s)), s)
  | OEnableChannel i e => Some (VErr (fst (r_enable i e (s_ch s))), with_ch (snd (r_enable i e (s_ch s))) s)
  | OSetChannel i f => Some (VErr (fst (r_set i f (s_ch s))), with_ch (snd (r_set i f (s_ch s))) s)
  | OSetRx2 f d =>
      Some (if 5 <? d then (VErr ERR_DATARATE, s)
            else if is_valid_frequency f then (VErr ERR_NO, on_stk (fun k => set_uw_rx2_dr d (set_uw_rx2_frequency f k)) s)
            else (VErr ERR_FREQUENCY, s))
  | OGetMax => Some (VNum (p_max s), s)
  | OSetDr d => Some (VUnit, if d <? 6 then on_stk (set_default_dr d) (on_ses (set_ses_dr d) s) else s)
  | OSetNb n => Some (if (1 <=? n) && (n <=? 15) then (VBool true, on_stk (fun k => set_default_nb_trans n (set_uw_nb_trans n k)) s)
                      else (VBool false, s))
  | OSetEirp e => Some (VUnit, on_stk (set_default_max_eirp e) s)
  | OSetTxp p => Some (if p <? 8 then (VBool true, on_stk (fun k => set_default_tx_power p (set_uw_tx_power p k)) s)
                       else (VBool false, s))
  | OSetRx1Off o => Some (if o <? 6 then (VBool true, on_stk (set_uw_rx1_offset o) s) else (VBool false, s))
  | OSetRx1Delay d => Some (if (1 <=? d) && (d <=? 15) then (VBool true, on_stk (set_default_rx1_delay (d * 1000)) s)
                            else (VBool false, s))
  | OAdrIs => Some (VBool (adr_is_enabled (s_adr s)), s)
  | OAdrEnable b => Some (VUnit, on_adr (fun a => set_ack_cnt 0 (set_adr_is_enabled b a)) s)
  | OAdrSetup l d => Some (VUnit, on_adr (fun a => set_ack_delay d (set_ack_limit l a)) s)
  | OSetHandlers c => Some (VUnit, on_mac (set_mac_cbs c) s)
  | OLinkCheckReq => Some (VBool (p_fits [] (s_mac s)), with_mac (p_enq 2 [] (s_mac s)) s)
  | ODevTimeReq => Some (VBool (p_fits [] (s_mac s)),
      with_mac (set_mac_save_dev_time (p_fits [] (s_mac s)) (p_enq 13 [] (s_mac s))) s)
  | OCsInit c => Some (VUnit, on_cs (fun x => set_ans_buf_data_size 0 (set_ans_pending false
      (set_app_time_req_pending false (set_state_token_req 0 (set_cs_callbacks c x))))) s)
  | OCsPending => Some (VBool (ans_pending (s_cs s)), s)
  | _ => None
  end.

Lemma blit_whole (a b : list Z) : length a = length b -> blit a 0 b = b.
Proof.
  intro H. unfold blit. cbn [Z.to_nat firstn app]. rewrite skipn_all2 by lia. apply app_nil_r.
Qed.

Lemma simple_ok E o v s' h s : Inv s -> op_wf o -> simple o s = Some (v, s') ->
  call E o h s = Ok (v, s', []).
Proof.
  intros HI Hw Hs. destruct o; cbn [simple] in Hs; try discriminate; cbn [op_wf] in Hw; cbn [call]; try (injection Hs as <- <-; []).
  - (* OSetOtaa *) destruct Hw as ((D1 & D2) & (A1 & A2) & (K1 & K2)). pose proof (iv_stk _ HI) as Hk.
    unfold as_unit, uwan_set_otaa_keys. msteps.
    bstep ltac:(apply arr_memcpy_ok; [lia|lia|unfold len; rewrite (tk_deui _ Hk); lia|unfold len; lia]). msteps.
    cbn [s_stk on_stk set_uw_dev_eui uw_app_eui].
    bstep ltac:(apply arr_memcpy_ok; [lia|lia|unfold len; rewrite (tk_aeui _ Hk); lia|unfold len; lia]). msteps.
    cbn [s_stk on_stk set_uw_dev_eui set_uw_app_eui uw_app_key].
    bstep ltac:(apply arr_memcpy_ok; [lia|lia|unfold len; rewrite (tk_key _ Hk); lia|unfold len; lia]). msteps.
    change (Z.to_nat 8) with 8%nat. change (Z.to_nat 16) with 16%nat.
    rewrite !firstn_all2 by lia.
    rewrite !blit_whole by (rewrite ?(tk_deui _ Hk), ?(tk_aeui _ Hk), ?(tk_key _ Hk); lia). reflexivity.
  - (* OSetSession *) destruct Hw as (_ & _ & _ & (N1 & _) & (P1 & _)).
    unfold as_unit. erewrite bind_ok0; [|apply set_session_ok; [apply HI|assumption|assumption]]. reflexivity.
  - reflexivity.
  - unfold as_err. erewrite bind_ok0; [|apply uwan_enable_channel_ok; [reflexivity|apply HI|unfold is_u8 in Hw; lia]]. reflexivity.
  - unfold as_err. destruct Hw as [H1 H2].
    erewrite bind_ok0; [|apply uwan_set_channel_ok; [reflexivity|apply HI|unfold is_u8 in H1; lia]]. reflexivity.
  - (* OSetRx2 *) destruct Hw as [H1 H2]. unfold is_u8, is_u32 in *. unfold as_err, uwan_set_rx2.
    rewrite is_valid_dr_spec by lia.
    destruct (Z.ltb_spec dr 6); destruct (Z.ltb_spec 5 dr); try lia; cbn [negb].
    + destruct (is_valid_frequency frequency); cbn [negb]; injection Hs as <- <-; reflexivity.
    + injection Hs as <- <-. reflexivity.
  - unfold as_num. erewrite bind_ok0; [|apply get_max_ok; exact HI]. reflexivity.
  - unfold is_u8 in Hw. unfold as_unit, uwan_set_dr. rewrite is_valid_dr_spec by lia. destruct (dr <? 6); reflexivity.
  - unfold as_bool, uwan_set_nb_trans, set_nb_trans, NB_TRANS_MIN, NB_TRANS_MAX.
    destruct ((1 <=? nb_trans) && (nb_trans <=? 15)); injection Hs as <- <-; reflexivity.
  - reflexivity.
  - unfold as_bool, uwan_set_tx_power, set_tx_power. rewrite is_valid_tx_power_spec.
    destruct (tx_power <? 8); injection Hs as <- <-; reflexivity.
  - unfold is_u8 in Hw. unfold as_bool, uwan_set_rx1_dr_offset. rewrite is_valid_dr_spec by lia.
    destruct (rx1_dr_offset <? 6); injection Hs as <- <-; reflexivity.
  - unfold is_u8 in Hw. unfold as_bool, uwan_set_rx1_delay.
    destruct ((1 <=? delay) && (delay <=? 15)) eqn:Ed; injection Hs as <- <-; [|reflexivity].
    rewrite u32_id by lia. reflexivity.
  - reflexivity.
  - reflexivity.
  - reflexivity.
  - reflexivity.
  - unfold as_bool, uwan_mac_link_check_req.
    erewrite bind_ok0; [|apply mac_enqueue_ok; [reflexivity|apply HI|cbn; lia]]. reflexivity.
  - unfold as_bool, uwan_mac_device_time_req. rewrite bind_bind.
    erewrite bind_ok0; [|apply mac_enqueue_ok; [reflexivity|apply HI|cbn; lia]]. reflexivity.
  - reflexivity.
  - reflexivity.
Qed.

Lemma simple_Inv o v s' s : Inv s -> op_wf o -> simple o s = Some (v, s') -> Inv s'.
Proof.
  intros HI Hw Hs. pose proof HI as [I1 I2 I3 I4 I5 I6].
  destruct o; cbn [simple] in Hs; try discriminate; cbn [op_wf] in Hw; try (injection Hs as <- <-; []); try exact HI.
  - destruct Hw as ((D1 & D2) & (A1 & A2) & (K1 & K2)). constructor; try assumption.
    destruct I5. constructor; cbn; assumption.
  - destruct Hw as (W1 & W2 & W3 & (N1 & N2) & (P1 & P2)). constructor; try assumption.
    destruct I5. constructor; cbn; assumption.
  - constructor; try assumption. apply r_enable_ok; [assumption|unfold is_u8 in Hw; lia].
  - constructor; try assumption. apply r_set_ok; [assumption|destruct Hw as [W _]; unfold is_u8 in W; lia].
  - destruct (Z.ltb_spec 5 dr); [injection Hs as <- <-; exact HI|].
    destruct (is_valid_frequency frequency) eqn:Ef; injection Hs as <- <-; [|exact HI].
    apply is_valid_frequency_spec in Ef. destruct Hw as [W1 W2]. unfold is_u8 in W2.
    constructor; try assumption. destruct I5. constructor; cbn; try assumption; [lia|lia|].
    intro Hn. destruct (tk_init Hn) as (B1 & B2 & B3). split; [exact B1|]. split; [lia|exact B3].
  - destruct (Z.ltb_spec dr 6); [|exact HI]. unfold is_u8 in Hw. constructor; try assumption.
    + destruct I4. constructor; cbn; try assumption. lia.
    + destruct I5. constructor; cbn; try assumption. lia.
  - destruct (_ && _) eqn:En; injection Hs as <- <-; [|exact HI]. constructor; try assumption.
    destruct I5. constructor; cbn; try assumption; lia.
  - constructor; try assumption. destruct I5. constructor; cbn; assumption.
  - unfold is_u8 in Hw. destruct (Z.ltb_spec tx_power 8); injection Hs as <- <-; [|exact HI]. constructor; try assumption.
    destruct I5. constructor; cbn; try assumption; lia.
  - unfold is_u8 in Hw. destruct (Z.ltb_spec rx1_dr_offset 6); injection Hs as <- <-; [|exact HI]. constructor; try assumption.
    destruct I5. constructor; cbn; try assumption; lia.
  - destruct (_ && _) eqn:En; injection Hs as <- <-; [|exact HI]. constructor; try assumption.
    destruct I5. constructor; cbn -[Z.mul]; try assumption. exists delay. lia.
  - constructor; try assumption. destruct I2. constructor; cbn; try assumption. lia.
  - destruct Hw as [W1 W2]. constructor; try assumption. destruct I2. constructor; cbn; assumption.
  - constructor; try assumption. destruct I3. constructor; cbn; assumption.
  - constructor; try assumption. apply p_enq_mac_ok; [assumption|unfold is_byte; lia|constructor].
  - constructor; try assumption. cbn [s_mac with_mac on_mac].
    assert (Hq : mac_ok (p_enq 13 [] (s_mac s))) by (apply p_enq_mac_ok; [assumption|unfold is_byte; lia|constructor]).
    destruct Hq. constructor; cbn [set_mac_save_dev_time mac_buf mac_buf_pos mac_dev_time]; assumption.
  - constructor; try assumption. destruct I6. constructor; cbn; try assumption; try lia; try discriminate.
Qed.

(** ** uwan_init *)
Definition clear_ch (c : chans) : chans := Mk_chans 0 [0; 0] (uw_channels c).
Definition region_chans (r : region) (c : chans) : chans :=
  match r with
  | EU868 => p_set 2 868500000 (p_set 1 868300000 (p_set 0 868100000 c))
  | RU864 => p_set 1 869100000 (p_set 0 868900000 c)
  end.
Definition region_rx2 (r : region) : Z := match r with EU868 => 868100000 | RU864 => 869100000 end.
Definition init_stk (r : region) (k : stackst) : stackst :=
  let p := pkt_params k in
  set_pkt_params (Mk_params (p_sf p) (p_bw p) 0 8 true (p_inverted_iq p) false)
    (set_uw_rx2_dr 0 (set_uw_rx2_frequency (region_rx2 r) (set_uw_rx1_offset 0 (set_default_rx1_delay 1000
      (set_uw_region (Some r) (set_uw_state IDLE k)))))).
Definition init_state (r : region) (s : st) : st :=
  Mk_st (region_chans r (clear_ch (s_ch s))) (s_adr s)
    (set_mac_save_dev_time false (set_mac_buf_pos 0 (s_mac s))) session0 (init_stk r (s_stk s)) (s_cs s).
Definition init_evs (E : env) (h : list ev) : list ev :=
  let seed := e_radio_rand E (h ++ [RSetHandler]) in [RSetHandler; RRand seed; LSrand seed].

Lemma clear_ch_ok c : chans_ok c -> chans_ok (clear_ch c) /\ forall i, 0 <= i -> cbit (clear_ch c) i = false.
Proof.
  intros [K1 K2 K3 K4 K5 K6].
  assert (Hb : forall i, 0 <= i -> cbit (clear_ch c) i = false).
  { intros i Hi. unfold cbit, clear_ch. cbn [uw_channels_mask].
    assert (Hz : forall j, get [0; 0] j = 0).
    { intro j. unfold get. destruct (Z.to_nat j) as [|[|[|n]]]; reflexivity. }
    rewrite Hz. apply Z.bits_0. }
  split; [|exact Hb]. constructor; cbn [clear_ch uw_channels_mask uw_channels uw_channels_max_count]; try assumption; try reflexivity; try lia.
  - repeat constructor; lia.
  - intros i Hi Hbi. rewrite Hb in Hbi by lia. discriminate.
Qed.

Lemma set_channel_valid i f c h s : s_ch s = c -> chans_ok c -> 0 <= i < 16 -> 860000000 <= f <= 870000000 ->
  uwan_set_channel i f h s = Ok (ERR_NO, with_ch (p_set i f c) s, []).
Proof.
  intros Hc Hok Hi Hf. rewrite (uwan_set_channel_ok i f c) by (try assumption; lia). unfold r_set.
  replace (16 <=? i) with false by lia. rewrite (proj2 (is_valid_frequency_spec f) Hf). reflexivity.
Qed.

Lemma init_ok E r h s : Inv s -> uwan_init E r h s = Ok (tt, init_state r s, init_evs E h).
Proof.
  intro HI. destruct (clear_ch_ok _ (iv_ch _ HI)) as [Hc _].
  unfold uwan_init, mac_init, channels_init. msteps.
  match goal with |- context [region_init r] => idtac end.
  set (s1 := on_ch _ _).
  assert (Hs1 : s_ch s1 = clear_ch (s_ch s)) by reflexivity.
  assert (Hp : forall i f c, chans_ok c -> 0 <= i < 16 -> 860000000 <= f <= 870000000 -> chans_ok (p_set i f c))
    by (intros; apply p_set_spec; assumption).
  assert (Hr : forall h', region_init r h' s1 =
     Ok (tt, on_stk (fun k => set_uw_rx2_dr 0 (set_uw_rx2_frequency (region_rx2 r) (set_uw_rx1_offset 0 (set_default_rx1_delay 1000 k))))
          (with_ch (region_chans r (clear_ch (s_ch s))) s1), [])).
  { intro h'. destruct r; cbn [region_init region_chans region_rx2]; unfold eu868_init, ru864_init.
    - bstep ltac:(apply set_channel_valid; [exact Hs1|exact Hc|lia|lia]).
      bstep ltac:(apply set_channel_valid; [reflexivity|apply Hp; [exact Hc|lia|lia]|lia|lia]).
      bstep ltac:(apply set_channel_valid; [reflexivity|apply Hp; [apply Hp; [exact Hc|lia|lia]|lia|lia]|lia|lia]).
      reflexivity.
    - bstep ltac:(apply set_channel_valid; [exact Hs1|exact Hc|lia|lia]).
      bstep ltac:(apply set_channel_valid; [reflexivity|apply Hp; [exact Hc|lia|lia]|lia|lia]).
      reflexivity. }
  bstep ltac:(apply Hr). unfold utils_random_init. msteps. reflexivity.
Qed.

Lemma init_Inv r s : Inv s -> Inv (init_state r s).
Proof.
  intro HI. destruct (clear_ch_ok _ (iv_ch _ HI)) as [Hc _]. pose proof HI as [I1 I2 I3 I4 I5 I6].
  assert (Hp : forall i f c, chans_ok c -> 0 <= i < 16 -> 860000000 <= f <= 870000000 -> chans_ok (p_set i f c))
    by (intros; apply p_set_spec; assumption).
  constructor; cbn [init_state s_ch s_adr s_mac s_ses s_stk s_cs]; try assumption.
  - destruct r; cbn [region_chans]; repeat (apply Hp; [|lia|lia]); exact Hc.
  - destruct I3. constructor; cbn; try assumption. lia.
  - constructor; cbn; try lia; try reflexivity; repeat constructor; lia.
  - destruct I5. constructor; cbn; try assumption; try lia.
    + exists 1. lia.
    + right. destruct r; cbn; lia.
    + intros _. destruct r; cbn; repeat split; discriminate.
    + intros [A|[A|A]]; discriminate.
Qed.

(** ** The invariant *)
Lemma power_on_Inv : Inv power_on.
Proof.
  assert (Hz : forall n, bytes_ok (zeros n)) by (intro; apply bytes_repeat; unfold is_byte; lia).
  constructor.
  - constructor; try reflexivity; try (cbn; lia).
    + apply (Hz 2%nat).
    + intros i Hi. left. unfold cfreq, get. cbn [power_on s_ch uw_channels]. unfold zeros. apply nth_repeat.
    + intros i Hi Hb. assert (Hg : forall j, get [0; 0] j = 0) by (intro j; unfold get; destruct (Z.to_nat j) as [|[|[|n]]]; reflexivity).
      unfold cbit in Hb. cbn [power_on s_ch uw_channels_mask] in Hb. change (zeros 2) with [0; 0] in Hb. rewrite Hg, Z.bits_0 in Hb. discriminate.
  - constructor; cbn; unfold is_byte; lia.
  - constructor; cbn; try reflexivity; try lia. apply (Hz 15%nat).
  - constructor; cbn; try reflexivity; try lia; apply (Hz 16%nat).
  - constructor; cbn; try reflexivity; try lia; try (apply (Hz 255%nat)); try (apply (Hz 8%nat)); try (apply (Hz 16%nat)).
    + exists 1. lia.
    + congruence.
    + intros [A|[A|A]]; discriminate.
  - constructor; cbn; try reflexivity; try lia; try discriminate. apply (Hz 32%nat).
Qed.
