(** PIrq.v -- the downlink dispatcher, the radio event handler and the timer
    callback (proof infrastructure). *)
From Verif Require Export PDown.

(** ** handle_downlink *)
Definition rx_state (d : list Z) (s : st) : st := with_frame (over d (frame s)) s.
Definition end_dl (s : st) : st := on_stk (set_uw_is_join_state false) s.
Definition p_view (p : pkt) (s : st) : dlview :=
  Mk_dlview (match pk_off p with None => None | Some o => Some (sub (frame s) o (pk_size p)) end)
    (pk_size p) (pk_port p) (pk_rssi p) (pk_snr p).

Inductive dl_cases (E : env) (h : list ev) (s : st) : res (unit * st * list ev) -> Prop :=
| DL_join : forall r s2 es,
    let rx := e_pkt E h in let d := rx_data rx in let s1 := rx_state d s in
    uw_is_join_state (s_stk s) = true ->
    ja_cases E d s1 (Ok (r, s2, es)) ->
    dl_cases E h s (Ok (tt, end_dl s2, RRead rx :: RSleep :: es ++
      [CbDown r (get (frame s1) 0 / 32) (Mk_dlview (Some (sub (frame s2) 0 (len d))) (len d) 0 (rx_rssi rx) (rx_snr rx))]))
| DL_data : forall r p s2 es,
    let rx := e_pkt E h in let d := rx_data rx in let s1 := rx_state d s in
    uw_is_join_state (s_stk s) = false ->
    data_cases E d (rx_rssi rx) (rx_snr rx) (h ++ [RRead rx; RSleep]) s1 (Ok ((r, p), s2, es)) ->
    dl_cases E h s (Ok (tt, end_dl s2, RRead rx :: RSleep :: es ++
      [CbDown r (get (frame s1) 0 / 32) (p_view p s2)])).

Lemma rx_state_Inv d s : Inv s -> bytes_ok d -> (length d <= 255)%nat -> Inv (rx_state d s).
Proof.
  intros [Hch Had Hm Hs Hk Hcs] Hd Hl. unfold rx_state, with_frame.
  constructor; cbn [on_stk s_ch s_adr s_mac s_ses s_stk s_cs]; try assumption.
  destruct Hk. constructor; cbn -[over]; try assumption.
  - unfold frame. rewrite over_len; lia.
  - unfold frame. apply over_bytes; assumption.
Qed.

Lemma dl_err_ok E e h s : uw_region (s_stk s) <> None -> is_ERR_NO e = false ->
  handle_downlink E e h s = Ok (tt, end_dl s, [RSleep; CbDown e 0 (Mk_dlview None 0 0 0 0)]).
Proof.
  intros Hr He. destruct (uw_region (s_stk s)) as [r|] eqn:Er; [|congruence].
  unfold handle_downlink. bstep ltac:(apply (deref_hal_ok r); exact Er). rewrite He. msteps. reflexivity.
Qed.

Lemma ja_frame_len E d s r s2 es : env_ok E -> Inv s -> (length d <= 255)%nat ->
  ja_cases E d s (Ok (r, s2, es)) -> length (frame s2) = 255%nat.
Proof.
  intros HE HI Hl H. pose proof (tk_frame _ (iv_stk _ HI)) as Hf.
  assert (Hx : forall D, length D = length d -> length (over D (frame s)) = 255%nat)
    by (intros D HD; rewrite over_len; [exact Hf|unfold frame; lia]).
  inversion H; subst; try exact Hf; apply Hx; apply ja_dec_length; assumption.
Qed.

Lemma d_frame_length E d c s : env_ok E -> 12 + d_fopts_len d <= len d -> length (d_frame E d c s) = length d.
Proof.
  intros HE Hl. unfold d_frame. destruct (Z.leb_spec (d_rest d) 1); [reflexivity|].
  assert (Hfo : 0 <= d_fopts_len d < 16) by (apply Z.mod_pos_bound; lia).
  unfold d_plain. rewrite !app_length, crypt_length by apply (ok_aes_len E HE).
  unfold d_mic, d_pld, sub. rewrite !firstn_length, !skipn_length. unfold d_rest, len in *. lia.
Qed.

Lemma with_frame_Inv f s : Inv s -> length f = 255%nat -> bytes_ok f -> Inv (with_frame f s).
Proof.
  intros [Hch Had Hm Hs Hk Hcs] Hd Hl. unfold with_frame.
  constructor; cbn [on_stk s_ch s_adr s_mac s_ses s_stk s_cs]; try assumption.
  destruct Hk. constructor; cbn; assumption.
Qed.
Lemma end_dl_Inv s : Inv s -> Inv (end_dl s).
Proof.
  intros [Hch Had Hm Hs Hk Hcs]. unfold end_dl.
  constructor; cbn [on_stk s_ch s_adr s_mac s_ses s_stk s_cs]; try assumption.
  destruct Hk. constructor; cbn; assumption.
Qed.
Lemma d_cmds_facts E h d snr c s : env_ok E -> e_strict_shl E = false -> Inv s -> uw_region (s_stk s) <> None ->
  bytes_ok d -> -128 <= snr < 128 -> 0 <= c < 4294967296 ->
  Inv (fst (d_cmds E h d snr c s)) /\ macfr (d_cnt d snr c s) (fst (d_cmds E h d snr c s)) /\
  Forall (fun e => is_mac_ev e = true) (snd (d_cmds E h d snr c s)).
Proof.
  intros HE Hns HI Hr Hd Hsnr Hc.
  apply (mac_handle_commands_ok E (d_fopts d) h (d_cnt d snr c s) HE Hns (d_cnt_Inv _ _ _ _ HI Hsnr Hc)).
  - destruct (d_cnt_facts d snr c s) as (_ & _ & _ & _ & -> & _). exact Hr.
  - apply bytes_sub. exact Hd.
Qed.

(** The complete effect on the fields outside the reach of commands. *)
Lemma d_frame_bytes E d c s : env_ok E -> bytes_ok d -> bytes_ok (d_frame E d c s).
Proof.
  intros HE Hd. unfold d_frame. destruct (d_rest d <=? 1); [exact Hd|].
  unfold bytes_ok, d_plain, d_mic. rewrite !Forall_app. repeat split.
  - apply bytes_firstn. exact Hd.
  - apply crypt_bytes; [exact HE|apply bytes_sub; exact Hd].
  - apply bytes_skipn. exact Hd.
Qed.

Lemma data_Inv E d rssi snr h s r p s2 es : env_ok E -> e_strict_shl E = false -> Inv s -> uw_region (s_stk s) <> None ->
  bytes_ok d -> (length d <= 255)%nat -> -128 <= snr < 128 ->
  data_cases E d rssi snr h s (Ok ((r, p), s2, es)) -> Inv s2.
Proof.
  intros HE Hns HI Hr Hd Hl Hsnr H.
  assert (Hc : forall c, new_cnt (f_cnt_down (s_ses s)) (g16 d 6) = Some c -> 0 <= c < 4294967296)
    by (intros c; apply new_cnt_range; apply g16_range; exact Hd).
  inversion H; subst; try exact HI; try (apply d_ack_Inv; exact HI).
  - apply d_cmds_facts; auto.
  - assert (HI2 : Inv (fst (d_cmds E h d snr c s))) by (apply d_cmds_facts; auto).
    assert (HI3 : Inv (with_frame (over (d_frame E d c s) (frame s)) (fst (d_cmds E h d snr c s)))).
    { pose proof (tk_frame _ (iv_stk _ HI)) as Hf. apply with_frame_Inv; [exact HI2| |].
      - rewrite over_len; [exact Hf|]. rewrite d_frame_length by assumption. unfold frame. lia.
      - apply over_bytes; [apply d_frame_bytes; assumption|apply (tk_frameb _ (iv_stk _ HI))]. }
    destruct HI3 as [K1 K2 K3 K4 K5 K6]. constructor; cbn [on_adr s_ch s_adr s_mac s_ses s_stk s_cs]; try assumption.
    destruct K2. constructor; cbn; [lia|assumption|assumption].
Qed.

Lemma p_cflist_chans_ok n : forall k first fl c, chans_ok c -> 0 <= k -> 0 <= first -> chans_ok (p_cflist n k first fl c).
Proof.
  induction n; intros k first fl c Hc Hk Hf; cbn [p_cflist]; [exact Hc|].
  apply IHn; [apply p_cf1_ok; [exact Hc|lia]|lia|lia].
Qed.
Lemma p_cf_chans_ok r fl c : chans_ok c -> chans_ok (p_cf r fl c).
Proof.
  intro Hc. unfold p_cf. destruct (get fl 15 =? 0); [|exact Hc].
  apply p_cflist_chans_ok; [exact Hc|lia|destruct r; cbn; lia].
Qed.

Lemma ja_Inv E d s r s2 es : env_ok E -> Inv s -> bytes_ok d -> (length d <= 255)%nat ->
  ja_cases E d s (Ok (r, s2, es)) -> Inv s2.
Proof.
  intros HE HI Hd Hl H. inversion H; subst; try exact HI.
  - pose proof (tk_frame _ (iv_stk _ HI)) as Hf. apply with_frame_Inv; [exact HI| |].
    + rewrite over_len; [exact Hf|]. unfold D, frame. rewrite ja_dec_length by assumption. lia.
    + apply over_bytes; [apply ja_dec_bytes; assumption|apply (tk_frameb _ (iv_stk _ HI))].
  - pose proof (tk_frame _ (iv_stk _ HI)) as Hf.
    assert (HDl : length D = length d) by (apply ja_dec_length; assumption).
    assert (HDb : bytes_ok D) by (apply ja_dec_bytes; assumption).
    assert (HI3 : Inv (with_frame (over D (frame s)) s)).
    { apply with_frame_Inv; [exact HI| |].
      - rewrite over_len; [exact Hf|]. unfold frame. lia.
      - apply over_bytes; [assumption|apply (tk_frameb _ (iv_stk _ HI))]. }
    clearbody D. clear H. set (s1 := with_frame _ s) in *. clearbody s1. clear HI Hf.
    destruct HI3 as [K1 K2 K3 K4 K5 K6]. unfold ja_state.
    constructor; cbn [s_ch s_adr s_mac s_ses s_stk s_cs]; try assumption.
    + unfold ja_ch. destruct (Z.eqb_spec (len D) 33); [|assumption].
      apply p_cf_chans_ok. exact K1.
    + unfold ja_ses, new_session. constructor; cbn -[session_key g32]; try apply K5; try lia.
      * apply g32_range; assumption.
      * apply (ok_aes_len E HE).
      * apply (ok_aes_byte E HE).
      * apply (ok_aes_len E HE).
      * apply (ok_aes_byte E HE).
    + unfold ja_stk. assert (1 <= ja_delay D <= 15).
      { unfold ja_delay. cbv zeta. pose proof (Z.mod_pos_bound (get D 12) 16 ltac:(lia)).
        destruct (Z.eqb_spec (get D 12 mod 16) 0); lia. }
      assert (0 <= ja_off D) by (apply Z.mod_pos_bound; lia).
      assert (0 <= ja_rx2 D) by (apply Z.mod_pos_bound; lia).
      destruct K5. constructor; cbn -[ja_delay ja_off ja_rx2 Z.mul]; try assumption.
      * destruct (Z.ltb_spec (ja_off D) 6); [lia|assumption].
      * exists (ja_delay D). lia.
      * destruct (Z.ltb_spec (ja_rx2 D) 6); [lia|assumption].
Qed.

Lemma dl_ok E h s : env_ok E -> e_strict_shl E = false -> Inv s -> uw_region (s_stk s) <> None ->
  dl_cases E h s (handle_downlink E ERR_NO h s).
Proof.
  intros HE Hns HI Hreg. destruct (uw_region (s_stk s)) as [rg|] eqn:Er; [|congruence].
  pose proof (tk_frame _ (iv_stk _ HI)) as Hf.
  set (rx := e_pkt E h). set (d := rx_data rx).
  assert (Hl : (length d <= 255)%nat) by apply (ok_pkt_len E HE).
  assert (Hd : bytes_ok d) by apply (ok_pkt_byte E HE).
  unfold handle_downlink. bstep ltac:(apply (deref_hal_ok rg); exact Er). cbn [is_ERR_NO]. msteps. fold rx. fold d.
  erewrite bind_ok0; [|apply (memcpy_over [] (frame s) d (len d)); [rewrite over_nil; reflexivity|exact Hf|reflexivity|cbn; lia]].
  cbn [app]. fold (rx_state d s). msteps.
  pose proof (rx_state_Inv d s HI Hd Hl) as HI1. set (s1 := rx_state d s) in *.
  assert (Hf1 : frame s1 = over d (frame s)) by reflexivity.
  assert (Hl1 : length (frame s1) = 255%nat) by apply (tk_frame _ (iv_stk _ HI1)).
  erewrite bind_ok0; [|apply frame_get_ok; unfold len; lia].
  msteps.
  assert (Hmt : Z.land (Z.shiftr (get (frame s1) 0) 5) 7 = get (frame s1) 0 / 32)
    by (apply mhdr_shift; apply bytes_get; apply (tk_frameb _ (iv_stk _ HI1))).
  rewrite Hmt. rewrite addev_addev.
  assert (Hreg1 : uw_region (s_stk s1) <> None) by (cbn; rewrite Er; discriminate).
  change (uw_is_join_state (s_stk s1)) with (uw_is_join_state (s_stk s)).
  destruct (uw_is_join_state (s_stk s)) eqn:Ej.
  - pose proof (handle_join_ok E d (rx_rssi rx) (rx_snr rx) (frame s) (h ++ [RRead rx] ++ [RSleep]) s1) as Hj.
    rewrite <- !app_assoc.
    specialize (Hj HE Hns HI1 Hreg1 Hd ltac:(unfold len; lia) Hf1 Hf).
    destruct (handle_join_msg E _ _ s1) as [[[r s2] es]|k] eqn:Em; [|inversion Hj].
    pose proof (ja_frame_len E d s1 r s2 es HE HI1 Hl Hj) as Hl2.
    rewrite bind_bind. erewrite bind_ok; [|exact Em]. msteps. unfold view_of. cbn [pk_off pk_size pk_port pk_rssi pk_snr].
    rewrite bind_bind. erewrite bind_ok0; [|apply frame_read_ok; unfold frame in *; cbn; unfold len; lia].
    msteps. rewrite addev_addev. cbn [addev emit app].
    apply (DL_join E h s r s2 es Ej Hj).
  - pose proof (handle_data_ok E d (rx_rssi rx) (rx_snr rx) (frame s) (h ++ [RRead rx] ++ [RSleep]) s1) as Hj.
    rewrite <- !app_assoc.
    specialize (Hj HE Hns HI1 Hreg1 Hd ltac:(unfold len; lia) Hf1 Hf (ok_pkt_snr E HE h)).
    destruct (handle_data_msg E _ _ s1) as [[[[r p] s2] es]|k] eqn:Em; [|inversion Hj].
    pose proof (data_Inv E d _ _ _ s1 r p s2 es HE Hns HI1 Hreg1 Hd Hl (ok_pkt_snr E HE h) Hj) as HI2.
    pose proof (tk_frame _ (iv_stk _ HI2)) as Hl2.
    assert (Hp : match pk_off p with None => True | Some o => 0 <= o /\ 0 <= pk_size p /\ o + pk_size p <= 255 end).
    { clear Em. assert (Hfo : 0 <= d_fopts_len d < 16) by (apply Z.mod_pos_bound; lia).
      inversion Hj; subst; cbn [pk_off pk_size]; unfold len in *; try lia.
      destruct (Z.ltb_spec 0 (d_rest d)); [|exact I].
      change (0 <= 9 + d_fopts_len d /\ 0 <= d_rest d - 1 /\ 9 + d_fopts_len d + (d_rest d - 1) <= 255).
      unfold d_rest, len in *. lia. }
    rewrite bind_bind. erewrite bind_ok; [|exact Em]. cbv beta iota. msteps.
    erewrite (bind_ok0 _ _ _ _ (p_view p s2)).
    2: { unfold view_of, p_view. destruct (pk_off p) as [o|]; [|reflexivity].
         erewrite bind_ok0; [|apply frame_read_ok; unfold frame in *; cbn; unfold len; lia]. reflexivity. }
    unfold emit. cbn [addev app].
    apply (DL_data E h s r p s2 es Ej Hj).
Qed.

Lemma dl_Inv E h s s' es : env_ok E -> e_strict_shl E = false -> Inv s -> uw_region (s_stk s) <> None ->
  dl_cases E h s (Ok (tt, s', es)) -> Inv s'.
Proof.
  intros HE Hns HI Hr H.
  assert (Hl : (length (rx_data (e_pkt E h)) <= 255)%nat) by apply (ok_pkt_len E HE).
  assert (Hd : bytes_ok (rx_data (e_pkt E h))) by apply (ok_pkt_byte E HE).
  pose proof (rx_state_Inv _ s HI Hd Hl) as HI1.
  inversion H; subst; apply end_dl_Inv.
  - eapply ja_Inv; eassumption.
  - eapply data_Inv; try eassumption. apply (ok_pkt_snr E HE).
Qed.

(** ** Radio events *)
Definition rx1_dr (s : st) : Z := Z.max 0 (cur_dr s - uw_rx1_offset (s_stk s)).
Definition rx1_params (s : st) : params :=
  let p := pkt_params (s_stk s) in
  let q := if uw_rx1_offset (s_stk s) =? 0 then p else set_sf_bw (6 - rx1_dr s, 0) p in
  set_iq true q.
Definition tx_done_mac (E : env) (h : list ev) (m : macst) : macst :=
  if mac_save_dev_time m then
    match mac_cbs m with
    | Some c => set_mac_save_dev_time false (if has_get_device_time c then set_mac_dev_time (e_devtime E h) m else m)
    | None => m
    end
  else m.
Definition tx_done_time (E : env) (h : list ev) (m : macst) : list ev :=
  if mac_save_dev_time m then
    match mac_cbs m with
    | Some c => if has_get_device_time c then [MGetTime (e_devtime E h)] else []
    | None => []
    end
  else [].
Definition tx_done_evs1 (s : st) : list ev :=
  [TStart TIMER_RX1 (uw_rx1_delay (s_stk s)); TStart TIMER_RX2 (uw_rx2_delay (s_stk s)); RSetup (rx1_params s)].
Definition tx_done_state (E : env) (h : list ev) (s : st) : st :=
  Mk_st (s_ch s) (s_adr s) (tx_done_mac E (h ++ tx_done_evs1 s) (s_mac s)) (s_ses s)
    (set_pkt_params (rx1_params s) (set_uw_state RX1 (s_stk s))) (s_cs s).
Definition tx_done_evs (E : env) (h : list ev) (s : st) : list ev :=
  tx_done_evs1 s ++ tx_done_time E (h ++ tx_done_evs1 s) (s_mac s).
Definition time_ok (m : macst) : Prop := mac_save_dev_time m = true -> mac_cbs m <> None.

Lemma tx_done_ok E h s : Inv s -> uw_region (s_stk s) <> None ->
  evt_tx_done E h s =
    (if mac_save_dev_time (s_mac s) && match mac_cbs (s_mac s) with None => true | _ => false end
     then Undef UB_null else Ok (tt, tx_done_state E h s, tx_done_evs E h s)).
Proof.
  intros HI Hr. destruct (uw_region (s_stk s)) as [r|] eqn:Er; [|congruence].
  unfold evt_tx_done. msteps. bstep ltac:(apply (deref_hal_ok r); exact Er). msteps.
  rewrite !addev_addev, <- !app_assoc. cbn [app].
  set (s1 := on_stk (set_uw_state RX1) s).
  assert (Hp : s_stk s1 = set_uw_state RX1 (s_stk s)) by reflexivity.
  pose proof (cur_dr_range s HI) as Hdr. pose proof (tk_off _ (iv_stk _ HI)) as Ho.
  erewrite (bind_ok0 _ _ _ s1 tt (on_stk (set_pkt_params
     (if uw_rx1_offset (s_stk s) =? 0 then pkt_params (s_stk s) else set_sf_bw (6 - rx1_dr s, 0) (pkt_params (s_stk s)))) s1)).
  2: { change (uw_rx1_offset (s_stk s1)) with (uw_rx1_offset (s_stk s)).
       destruct (Z.eqb_spec (uw_rx1_offset (s_stk s)) 0) as [E0|E0]; cbn [negb].
       - unfold s1. destruct s as [a b c d [] g]. reflexivity.
       - bstep ltac:(apply get_current_dr_ok). change (cur_dr s1) with (cur_dr s).
         assert (Hx : (if cur_dr s <? uw_rx1_offset (s_stk s) then DR_0 else cur_dr s - uw_rx1_offset (s_stk s)) = rx1_dr s).
         { unfold rx1_dr, DR_0. destruct (Z.ltb_spec (cur_dr s) (uw_rx1_offset (s_stk s))); lia. }
         change (uw_rx1_offset (s_stk s1)) with (uw_rx1_offset (s_stk s)). rewrite Hx.
         bstep ltac:(apply dr_table_ok; unfold rx1_dr; lia). reflexivity. }
  msteps.
  unfold mac_on_tx_complete. rewrite ?addev_addev. cbn [app]. msteps.
  cbn [on_stk on_mac s_mac s_stk set_pkt_params pkt_params].
  destruct (mac_save_dev_time (s_mac s)) eqn:Es; cbn [andb].
  all: change (s_mac s1) with (s_mac s); rewrite Es; rewrite <- !app_assoc; cbn [app];
    change (uw_rx1_delay (s_stk s1)) with (uw_rx1_delay (s_stk s));
    change (uw_rx2_delay (s_stk s1)) with (uw_rx2_delay (s_stk s)).
  - msteps. cbn [on_stk on_mac s_mac s_stk]. change (s_mac s1) with (s_mac s).
    unfold tx_done_state, tx_done_mac, tx_done_evs, tx_done_time. rewrite Es.
    cbn [set_mac_save_dev_time mac_cbs].
    destruct (mac_cbs (s_mac s)) as [c|] eqn:Ec; [|reflexivity].
    destruct (has_get_device_time c); [|reflexivity]. msteps. reflexivity.
  - unfold tx_done_state, tx_done_mac, tx_done_evs, tx_done_time. rewrite Es. reflexivity.
Qed.

Lemma rx1_params_ok s : Inv s -> uw_state (s_stk s) = TX ->
  1 <= p_sf (rx1_params s) <= 6 /\ p_bw (rx1_params s) = 0 /\ p_cr (rx1_params s) = 0 /\
  p_preamble_len (rx1_params s) = 8 /\ p_crc_on (rx1_params s) = true /\ p_implicit_header (rx1_params s) = false /\
  p_inverted_iq (rx1_params s) = true.
Proof.
  intros HI Hst. pose proof (cur_dr_range s HI) as Hdr. pose proof (tk_off _ (iv_stk _ HI)) as Ho.
  destruct (tk_init _ (iv_stk _ HI)) as (_ & _ & A1 & A2 & A3 & A4); [rewrite Hst; discriminate|].
  destruct (tk_busy _ (iv_stk _ HI)) as (B1 & B2); [auto|].
  unfold rx1_params. cbv zeta.
  destruct (uw_rx1_offset (s_stk s) =? 0);
    cbn -[rx1_dr Z.sub]; repeat split; try assumption; try reflexivity; try apply B1; unfold rx1_dr; lia.
Qed.

Lemma tx_done_Inv E h s : env_ok E -> Inv s -> uw_state (s_stk s) = TX -> Inv (tx_done_state E h s).
Proof.
  intros HE HI Hst. destruct (rx1_params_ok s HI Hst) as (P1 & P2 & P3 & P4 & P5 & P6 & _).
  destruct HI as [Hch Had Hm Hs Hk Hcs]. unfold tx_done_state.
  generalize dependent (rx1_params s). intros q P1 P2 P3 P4 P5 P6.
  constructor; cbn [s_ch s_adr s_mac s_ses s_stk s_cs]; try assumption.
  - unfold tx_done_mac. destruct (mac_save_dev_time (s_mac s)); [|assumption].
    destruct (mac_cbs (s_mac s)) as [c|]; [|assumption].
    destruct (has_get_device_time c); destruct Hm; constructor; cbn; try assumption. apply (ok_devtime E HE).
  - destruct Hk. rewrite Hst in *. constructor; cbn; try assumption.
    + intros _. destruct tk_init as (A & B & _); [discriminate|]. auto 10.
    + auto.
Qed.

(** *** end of RX1 without a packet *)
Definition rx2_params (s : st) : params :=
  set_iq true (set_sf_bw (6 - uw_rx2_dr (s_stk s), 0) (pkt_params (s_stk s))).
Definition rx1_to_state (s : st) : st :=
  on_stk (fun k => set_pkt_params (rx2_params s) (set_uw_state RX2 k)) s.
Definition rx1_to_evs (s : st) : list ev := [RSetFreq (uw_rx2_frequency (s_stk s)); RSetup (rx2_params s)].
Lemma rx1_to_ok h s : Inv s -> uw_region (s_stk s) <> None ->
  evt_rx1_timeout h s = Ok (tt, rx1_to_state s, rx1_to_evs s).
Proof.
  intros HI Hr. destruct (uw_region (s_stk s)) as [r|] eqn:Er; [|congruence].
  pose proof (tk_rx2dr _ (iv_stk _ HI)) as Hd.
  unfold evt_rx1_timeout. msteps. bstep ltac:(apply (deref_hal_ok r); exact Er). msteps.
  bstep ltac:(apply dr_table_ok; exact Hd). msteps. rewrite ?addev_addev. reflexivity.
Qed.
Lemma rx1_to_Inv s : Inv s -> uw_state (s_stk s) = RX1 -> Inv (rx1_to_state s).
Proof.
  intros [Hch Had Hm Hs Hk Hcs] Hst. unfold rx1_to_state.
  constructor; cbn [on_stk s_ch s_adr s_mac s_ses s_stk s_cs]; try assumption.
  destruct Hk. rewrite Hst in *. constructor; cbn -[Z.sub]; try assumption.
  - intros _. destruct tk_init as (A & B & C1 & C2 & C3 & C4); [discriminate|]. auto 10.
  - intros _. lia.
Qed.

Definition idle_state (s : st) : st := on_stk (set_uw_state IDLE) s.
Lemma idle_Inv s : Inv s -> uw_state (s_stk s) <> NOT_INIT -> Inv (idle_state s).
Proof.
  intros [Hch Had Hm Hs Hk Hcs] Hst. unfold idle_state.
  constructor; cbn [on_stk s_ch s_adr s_mac s_ses s_stk s_cs]; try assumption.
  destruct Hk. constructor; cbn; try assumption.
  - auto.
  - intros [A|[A|A]]; discriminate.
Qed.

(** ** All outcomes of a radio interrupt *)
Definition flag (mask bit : Z) : bool := Z.testbit mask bit.
Lemma irq_has_spec mask bit : 0 <= bit -> irq_has mask (2 ^ bit) = flag mask bit.
Proof. intro. unfold irq_has, flag. rewrite <- (Z.shiftl_1_l bit). apply land_bit. assumption. Qed.

Inductive irq_cases (E : env) (mask : Z) (h : list ev) (s : st) : res (unit * st * list ev) -> Prop :=
| IC_ignored : (uw_state (s_stk s) = NOT_INIT \/ uw_state (s_stk s) = IDLE \/
                (uw_state (s_stk s) = TX /\ flag mask 2 = false) \/
                ((uw_state (s_stk s) = RX1 \/ uw_state (s_stk s) = RX2) /\ flag mask 0 = false /\ flag mask 1 = false)) ->
    irq_cases E mask h s (Ok (tt, s, []))
| IC_txdone_ub : uw_state (s_stk s) = TX -> flag mask 2 = true ->
    mac_save_dev_time (s_mac s) = true -> mac_cbs (s_mac s) = None ->
    irq_cases E mask h s (Undef UB_null)
| IC_txdone : uw_state (s_stk s) = TX -> flag mask 2 = true -> time_ok (s_mac s) ->
    irq_cases E mask h s (Ok (tt, tx_done_state E h s, tx_done_evs E h s))
| IC_rx1_timeout : uw_state (s_stk s) = RX1 -> flag mask 0 = true ->
    irq_cases E mask h s (Ok (tt, rx1_to_state s, rx1_to_evs s))
| IC_rx2_timeout : uw_state (s_stk s) = RX2 -> flag mask 0 = true ->
    irq_cases E mask h s (Ok (tt, end_dl (idle_state s), [RSleep; CbDown ERR_RX_TIMEOUT 0 (Mk_dlview None 0 0 0 0)]))
| IC_rx1_crc : uw_state (s_stk s) = RX1 -> flag mask 0 = false -> flag mask 1 = true -> flag mask 3 = true ->
    irq_cases E mask h s (Ok (tt, end_dl (idle_state s), [TStop TIMER_RX2; RSleep; CbDown ERR_RX_CRC 0 (Mk_dlview None 0 0 0 0)]))
| IC_rx2_crc : uw_state (s_stk s) = RX2 -> flag mask 0 = false -> flag mask 1 = true -> flag mask 3 = true ->
    irq_cases E mask h s (Ok (tt, end_dl (idle_state s), [RSleep; CbDown ERR_RX_CRC 0 (Mk_dlview None 0 0 0 0)]))
| IC_rx1_done : forall s' es, uw_state (s_stk s) = RX1 -> flag mask 0 = false -> flag mask 1 = true -> flag mask 3 = false ->
    dl_cases E (h ++ [TStop TIMER_RX2]) (idle_state s) (Ok (tt, s', es)) ->
    irq_cases E mask h s (Ok (tt, s', TStop TIMER_RX2 :: es))
| IC_rx2_done : forall s' es, uw_state (s_stk s) = RX2 -> flag mask 0 = false -> flag mask 1 = true -> flag mask 3 = false ->
    dl_cases E h (idle_state s) (Ok (tt, s', es)) ->
    irq_cases E mask h s (Ok (tt, s', es)).

Lemma dl_is_ok E h s r : dl_cases E h s r -> exists s' es, r = Ok (tt, s', es).
Proof. intros []; eauto. Qed.

Lemma irq_ok E mask h s : env_ok E -> e_strict_shl E = false -> Inv s ->
  irq_cases E mask h s (evt_handler E mask h s).
Proof.
  intros HE Hns HI. unfold evt_handler. msteps.
  change IRQF_TX_DONE with (2 ^ 2). change IRQF_RX_TIMEOUT with (2 ^ 0).
  change IRQF_RX_DONE with (2 ^ 1). change IRQF_CRC_ERROR with (2 ^ 3).
  rewrite !irq_has_spec by lia.
  destruct (uw_state (s_stk s)) eqn:Est.
  - apply IC_ignored. auto.
  - apply IC_ignored. auto.
  - destruct (tk_init _ (iv_stk _ HI)) as (Hr & _); [rewrite Est; discriminate|].
    destruct (flag mask 2) eqn:E2; [|apply IC_ignored; auto].
    rewrite tx_done_ok by assumption.
    destruct (mac_save_dev_time (s_mac s)) eqn:Es; cbn [andb].
    + destruct (mac_cbs (s_mac s)) eqn:Ec; [|apply IC_txdone_ub; auto].
      apply IC_txdone; auto. intros _. congruence.
    + apply IC_txdone; auto. unfold time_ok. congruence.
  - destruct (tk_init _ (iv_stk _ HI)) as (Hr & _); [rewrite Est; discriminate|].
    destruct (flag mask 0) eqn:E0.
    { rewrite rx1_to_ok by assumption. apply IC_rx1_timeout; auto. }
    destruct (flag mask 1) eqn:E1; [|apply IC_ignored; auto 10].
    assert (HI1 : Inv (idle_state s)) by (apply idle_Inv; [assumption|rewrite Est; discriminate]).
    assert (Hr1 : uw_region (s_stk (idle_state s)) <> None) by exact Hr.
    destruct (uw_region (s_stk s)) as [r|] eqn:Er; [|congruence].
    bstep ltac:(apply (deref_hal_ok r); exact Er). msteps. fold (idle_state s).
    destruct (flag mask 3) eqn:E3.
    + rewrite dl_err_ok by auto. apply IC_rx1_crc; auto.
    + pose proof (dl_ok E (h ++ [TStop TIMER_RX2]) (idle_state s) HE Hns HI1 Hr1) as Hd.
      destruct (dl_is_ok _ _ _ _ Hd) as (s' & es & Heq). rewrite Heq in *. apply IC_rx1_done; auto.
  - destruct (tk_init _ (iv_stk _ HI)) as (Hr & _); [rewrite Est; discriminate|].
    assert (HI1 : Inv (idle_state s)) by (apply idle_Inv; [assumption|rewrite Est; discriminate]).
    assert (Hr1 : uw_region (s_stk (idle_state s)) <> None) by exact Hr.
    destruct (flag mask 0) eqn:E0.
    { msteps. fold (idle_state s). rewrite dl_err_ok by auto. apply IC_rx2_timeout; auto. }
    destruct (flag mask 1) eqn:E1; [|apply IC_ignored; auto 10].
    msteps. fold (idle_state s).
    destruct (flag mask 3) eqn:E3.
    + rewrite dl_err_ok by auto. apply IC_rx2_crc; auto.
    + pose proof (dl_ok E h (idle_state s) HE Hns HI1 Hr1) as Hd.
      destruct (dl_is_ok _ _ _ _ Hd) as (s' & es & Heq). rewrite Heq in *. apply IC_rx2_done; auto.
Qed.

Lemma irq_Inv E mask h s s' es : env_ok E -> e_strict_shl E = false -> Inv s ->
  irq_cases E mask h s (Ok (tt, s', es)) -> Inv s'.
Proof.
  intros HE Hns HI H.
  assert (Hi : uw_state (s_stk s) <> NOT_INIT -> Inv (idle_state s)) by (apply idle_Inv; assumption).
  assert (Hr : uw_state (s_stk s) <> NOT_INIT -> uw_region (s_stk (idle_state s)) <> None)
    by (intro A; apply (tk_init _ (iv_stk _ HI) A)).
  inversion H; subst; try exact HI.
  - apply tx_done_Inv; assumption.
  - apply rx1_to_Inv; assumption.
  - apply end_dl_Inv, Hi. congruence.
  - apply end_dl_Inv, Hi. congruence.
  - apply end_dl_Inv, Hi. congruence.
  - eapply dl_Inv; [exact HE|exact Hns| | |eassumption]; [apply Hi; congruence|apply Hr; congruence].
  - eapply dl_Inv; [exact HE|exact Hns| | |eassumption]; [apply Hi; congruence|apply Hr; congruence].
Qed.

(** ** Timer callback *)
Definition timer_evs (t : timer_id) (s : st) : list ev :=
  match uw_state (s_stk s), t with
  | RX1, TIMER_RX1 | RX2, TIMER_RX2 => [RRx 255 8 0]
  | _, _ => []
  end.
Lemma timer_ok t h s : Inv s -> uwan_timer_callback t h s = Ok (tt, s, timer_evs t s).
Proof.
  intro HI. unfold uwan_timer_callback, timer_evs. msteps.
  pose proof (tk_init _ (iv_stk _ HI)) as Hr.
  destruct (uw_state (s_stk s)) eqn:Est; try reflexivity; destruct t; try reflexivity;
    (destruct Hr as (Hr & _); [discriminate|]; destruct (uw_region (s_stk s)) as [r|] eqn:Er; [|congruence];
     bstep ltac:(apply (deref_hal_ok r); exact Er); reflexivity).
Qed.
