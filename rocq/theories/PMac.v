(** PMac.v -- the state invariant and proofs about src/mac.c and src/adr.c. *)
From Verif Require Export PChan Mac.

Record adr_ok (a : adrst) : Prop := Mk_adr_ok {
  ak_cnt : 0 <= ack_cnt a < 4294967296;
  ak_lim : is_byte (ack_limit a);
  ak_del : is_byte (ack_delay a)
}.
Record mac_ok (m : macst) : Prop := Mk_mac_ok {
  mk_len : length (mac_buf m) = 15%nat;
  mk_bytes : bytes_ok (mac_buf m);
  mk_pos : 0 <= mac_buf_pos m <= 15;
  mk_time : 0 <= mac_dev_time m < 4294967296
}.
Record ses_ok (r : session) : Prop := Mk_ses_ok {
  sk_dr : 0 <= ses_dr r < 6;
  sk_addr : 0 <= dev_addr r < 4294967296;
  sk_up : 0 <= f_cnt_up r < 4294967296;
  sk_down : 0 <= f_cnt_down r < 4294967296;
  sk_nwk : length (nwk_s_key r) = 16%nat;
  sk_nwkb : bytes_ok (nwk_s_key r);
  sk_app : length (app_s_key r) = 16%nat;
  sk_appb : bytes_ok (app_s_key r)
}.
Record stk_ok (k : stackst) : Prop := Mk_stk_ok {
  tk_frame : length (uw_frame k) = 255%nat;
  tk_frameb : bytes_ok (uw_frame k);
  tk_rx1 : 0 <= uw_rx1_delay k < 4294967296;
  tk_off : 0 <= uw_rx1_offset k < 6;
  tk_rx2 : 0 <= uw_rx2_delay k < 4294967296;
  tk_nonce : 0 <= uw_dev_nonce k < 65536;
  tk_deui : length (uw_dev_eui k) = 8%nat;
  tk_deuib : bytes_ok (uw_dev_eui k);
  tk_aeui : length (uw_app_eui k) = 8%nat;
  tk_aeuib : bytes_ok (uw_app_eui k);
  tk_key : length (uw_app_key k) = 16%nat;
  tk_keyb : bytes_ok (uw_app_key k);
  tk_ddel : exists d, 1 <= d <= 15 /\ default_rx1_delay k = 1000 * d;
  tk_ddr : 0 <= default_dr k < 6;
  tk_dnb : 1 <= default_nb_trans k <= 15;
  tk_nb : 1 <= uw_nb_trans k <= 15;
  tk_dtxp : 0 <= default_tx_power k < 8;
  tk_txp : 0 <= uw_tx_power k < 8;
  tk_eirp : -128 <= default_max_eirp k < 128;
  tk_snr : -128 <= current_snr k < 128;
  tk_rx2f : uw_rx2_frequency k = 0 \/ 860000000 <= uw_rx2_frequency k <= 870000000;
  tk_rx2dr : 0 <= uw_rx2_dr k < 6;
  tk_init : uw_state k <> NOT_INIT ->
    uw_region k <> None /\ uw_rx2_frequency k <> 0 /\
    p_cr (pkt_params k) = 0 /\ p_preamble_len (pkt_params k) = 8 /\
    p_crc_on (pkt_params k) = true /\ p_implicit_header (pkt_params k) = false;
  tk_busy : uw_state k = TX \/ uw_state k = RX1 \/ uw_state k = RX2 ->
    1 <= p_sf (pkt_params k) <= 6 /\ p_bw (pkt_params k) = 0
}.
Record cs_ok (c : csync) : Prop := Mk_cs_ok {
  xk_len : length (ans_buf c) = 32%nat;
  xk_bytes : bytes_ok (ans_buf c);
  xk_size : 0 <= ans_buf_data_size c <= 9;
  xk_tok : 0 <= state_token_req c < 16;
  xk_pend : ans_pending c = true -> 0 < ans_buf_data_size c /\ cs_callbacks c <> None
}.
Record Inv (s : st) : Prop := Mk_Inv {
  iv_ch : chans_ok (s_ch s);
  iv_adr : adr_ok (s_adr s);
  iv_mac : mac_ok (s_mac s);
  iv_ses : ses_ok (s_ses s);
  iv_stk : stk_ok (s_stk s);
  iv_cs : cs_ok (s_cs s)
}.

(** the MAC queue as a byte string *)
Definition queue (m : macst) : list Z := firstn (Z.to_nat (mac_buf_pos m)) (mac_buf m).

Lemma queue_len m : mac_ok m -> len (queue m) = mac_buf_pos m.
Proof.
  intros [K1 K2 K3 K4]. unfold queue, len. rewrite firstn_length. lia.
Qed.
Lemma queue_bytes m : mac_ok m -> bytes_ok (queue m).
Proof. intros [K1 K2 K3 K4]. apply bytes_firstn. exact K2. Qed.

Definition p_enq_mac (cid : Z) (data : list Z) (m : macst) : macst :=
  Mk_macst (blit (mac_buf m) (mac_buf_pos m) (cid :: data)) (mac_buf_pos m + 1 + len data)
    (mac_save_dev_time m) (mac_dev_time m) (mac_cbs m).
Definition p_fits (data : list Z) (m : macst) : bool := mac_buf_pos m + 1 + len data <=? 15.
Definition p_enq (cid : Z) (data : list Z) (m : macst) : macst :=
  if p_fits data m then p_enq_mac cid data m else m.

Lemma upd_split l i v : 0 <= i < len l ->
  upd (Z.to_nat i) v l = firstn (Z.to_nat i) l ++ v :: skipn (Z.to_nat i + 1) l.
Proof.
  intro H. unfold len in H. generalize (Z.to_nat i), (ltac:(lia) : (Z.to_nat i < length l)%nat).
  clear. induction l; destruct n; simpl; intros; try lia; [reflexivity|].
  rewrite IHl by lia. reflexivity.
Qed.

Lemma blit_cons l off b bs : 0 <= off -> off + 1 + len bs <= len l ->
  blit (upd (Z.to_nat off) b l) (off + 1) bs = blit l off (b :: bs).
Proof.
  intros H1 H2. pose proof (len_nonneg bs). rewrite upd_split by lia. unfold blit.
  replace (Z.to_nat (off + 1)) with (Z.to_nat off + 1)%nat by lia.
  unfold len in *.
  assert (Hf : length (firstn (Z.to_nat off) l) = Z.to_nat off) by (rewrite firstn_length; lia).
  replace (firstn (Z.to_nat off) l ++ b :: skipn (Z.to_nat off + 1) l)
    with ((firstn (Z.to_nat off) l ++ [b]) ++ skipn (Z.to_nat off + 1) l)
    by (rewrite <- app_assoc; reflexivity).
  rewrite firstn_exact by (rewrite app_length, Hf; reflexivity).
  rewrite <- app_assoc. f_equal. cbn [app]. f_equal. f_equal.
  rewrite skipn_app, skipn_all2 by (rewrite app_length, Hf; cbn [length]; lia).
  rewrite app_length, Hf. cbn [app length]. rewrite skipn_skipn'. f_equal. lia.
Qed.

Lemma blit_nil l off : blit l off [] = l.
Proof. unfold blit. cbn [app length]. rewrite Nat.add_0_r. apply firstn_skipn. Qed.

Lemma blit_one l off b : 0 <= off < len l -> blit l off [b] = upd (Z.to_nat off) b l.
Proof.
  intro H. rewrite <- (blit_cons l off b []) by (cbn; lia). apply blit_nil.
Qed.

Lemma mac_enqueue_ok cid data m h s : s_mac s = m -> mac_ok m -> len data < 200 ->
  mac_enqueue cid data h s = Ok (p_fits data m, with_mac (p_enq cid data m) s, []).
Proof.
  intros <- [K1 K2 K3 K4] Hd. pose proof (len_nonneg data).
  set (m := s_mac s) in *. unfold mac_enqueue, get_mac. rewrite !bind_gets. fold m. cbv zeta.
  unfold p_enq, p_fits.
  assert (Hl : len (mac_buf m) = 15) by (unfold len; rewrite K1; reflexivity).
  rewrite Hl, u8_id by lia.
  destruct (Z.leb_spec (mac_buf_pos m + 1 + len data) 15);
    destruct (Z.ltb_spec (15 - mac_buf_pos m) (1 + len data)); try lia.
  - erewrite bind_ok0; [|apply arr_set_ok; lia].
    unfold mod_mac. rewrite !bind_modify. rewrite u8_id by lia.
    destruct (Z.eqb_spec (len data) 0) as [Hz|Hz]; cbn [negb].
    + rewrite bind_ret. assert (data = []) as -> by (destruct data; [reflexivity|rewrite len_cons in Hz; pose proof (len_nonneg data); lia]).
      unfold ret, p_enq_mac. cbn [len length Z.of_nat]. rewrite Z.add_0_r, blit_one by lia. reflexivity.
    + rewrite bind_bind, bind_gets.
      cbn [s_mac on_mac mac_buf_pos set_mac_buf_pos set_mac_buf]. rewrite bind_bind.
      erewrite bind_ok0; [|apply arr_memcpy_ok; rewrite ?len_upd; lia].
      rewrite bind_bind, !bind_modify. unfold ret, p_enq_mac.
      rewrite u8_id by lia.
      replace (firstn (Z.to_nat (len data)) data) with data
        by (unfold len; rewrite Nat2Z.id, firstn_all; reflexivity).
      rewrite blit_cons by lia. reflexivity.
  - unfold m. rewrite with_mac_self. reflexivity.
Qed.

Lemma p_enq_mac_ok cid data m : mac_ok m -> is_byte cid -> bytes_ok data -> mac_ok (p_enq cid data m).
Proof.
  intros [K1 K2 K3 K4] Hc Hd. pose proof (len_nonneg data). unfold p_enq, p_fits.
  destruct (Z.leb_spec (mac_buf_pos m + 1 + len data) 15); [|constructor; assumption].
  constructor; cbn [p_enq_mac mac_buf mac_buf_pos mac_dev_time].
  - rewrite length_blit; [exact K1|lia|]. rewrite len_cons. unfold len in *. lia.
  - apply bytes_blit; [exact K2|]. constructor; assumption.
  - lia.
  - exact K4.
Qed.

Lemma p_enq_queue cid data m : mac_ok m ->
  queue (p_enq cid data m) = if p_fits data m then queue m ++ cid :: data else queue m.
Proof.
  intros [K1 K2 K3 K4]. pose proof (len_nonneg data). unfold p_enq.
  destruct (p_fits data m) eqn:E; [|reflexivity].
  unfold p_fits in E. unfold queue, p_enq_mac. cbn [mac_buf mac_buf_pos].
  unfold blit. rewrite app_assoc. apply firstn_exact.
  rewrite app_length, firstn_length. cbn [length]. unfold len in *. lia.
Qed.

(** the flag and the handlers are untouched by enqueueing *)
Lemma p_enq_frame cid data m :
  mac_save_dev_time (p_enq cid data m) = mac_save_dev_time m /\
  mac_dev_time (p_enq cid data m) = mac_dev_time m /\ mac_cbs (p_enq cid data m) = mac_cbs m.
Proof. unfold p_enq. destruct (p_fits data m); auto. Qed.

(** ** Handlers as pure functions: result, next state, external calls *)
Definition hres := (bool * st * list ev)%type.
Definition enq (cid : Z) (data : list Z) (s : st) : hres :=
  (p_fits data (s_mac s), with_mac (p_enq cid data (s_mac s)) s, []).

Definition b24 (pld : list Z) (i : Z) : Z :=
  get pld i + 256 * get pld (i + 1) + 65536 * get pld (i + 2).

Definition ph_link_check (pld : list Z) (s : st) : hres :=
  (true, s, match mac_cbs (s_mac s) with
            | Some c => if has_link_check_result c then [MLinkCheck (get pld 0) (get pld 1)] else []
            | None => []
            end).

Definition adr_status (p0 ch_mask cntl : Z) (c : chans) : Z :=
  (if p0 / 16 <? 6 then 2 else 0) + (if p_mask_ok ch_mask cntl c then 1 else 0)
  + (if p0 mod 16 <? 8 then 4 else 0).
Definition ph_link_adr (pld : list Z) (s : st) : hres :=
  let p0 := get pld 0 in
  let ch_mask := get pld 1 + 256 * get pld 2 in
  let cntl := Z.land (get pld 3 / 16) 4 in
  let nb := get pld 3 mod 16 in
  let r := adr_status p0 ch_mask cntl (s_ch s) in
  let s1 :=
    if r =? 7 then
      with_ch (p_mask ch_mask cntl (s_ch s))
        (on_ses (set_ses_dr (p0 / 16))
          (on_stk (fun k => set_uw_tx_power (p0 mod 16)
             (set_uw_nb_trans (if nb =? 0 then default_nb_trans k else nb) k)) s))
    else s in
  enq 3 [r] s1.
Definition ph_duty (pld : list Z) (s : st) : hres := enq 4 [] s.
Definition rxp_status (off dr freq : Z) : Z :=
  (if off <? 6 then 4 else 0) + (if dr <? 6 then 2 else 0) + (if is_valid_frequency freq then 1 else 0).
Definition ph_rx_param (pld : list Z) (s : st) : hres :=
  let off := get pld 0 / 16 mod 8 in
  let dr := get pld 0 mod 16 in
  let freq := b24 pld 1 * 100 in
  let r := rxp_status off dr freq in
  let s1 := if r =? 7 then
      on_stk (fun k => set_uw_rx2_dr dr (set_uw_rx2_frequency freq (set_uw_rx1_offset off k))) s
    else s in
  enq 5 [r] s1.
Definition ph_dev_status (E : env) (h : list ev) (pld : list Z) (s : st) : hres :=
  let q := match mac_cbs (s_mac s) with Some c => has_get_battery_level c | None => false end in
  let lvl := if q then e_battery E h else 255 in
  let '(b, s1, _) := enq 6 [lvl; current_snr (s_stk s) mod 64] s in
  (b, s1, if q then [MBattery lvl] else []).
Definition ph_new_channel (pld : list Z) (s : st) : hres :=
  let i := get pld 0 in
  let freq := b24 pld 1 * 100 in
  let r0 := (if is_valid_frequency freq then 1 else 0) + (if get pld 4 =? 80 then 2 else 0) in
  let r := if r0 =? 3 then (if i <? 16 then 3 else 0) else r0 in
  let s1 := if r =? 3 then with_ch (p_set i freq (s_ch s)) s else s in
  enq 7 [r] s1.
Definition ph_rx_timing (pld : list Z) (s : st) : hres :=
  let d := get pld 0 mod 16 in
  let d := if d =? 0 then 1 else d in
  enq 8 [] (on_stk (set_default_rx1_delay (1000 * d)) s).
Definition b32 (pld : list Z) (i : Z) : Z :=
  get pld i + 256 * get pld (i + 1) + 65536 * get pld (i + 2) + 16777216 * get pld (i + 3).
Definition ph_device_time (pld : list Z) (s : st) : hres :=
  (true, s, match mac_cbs (s_mac s) with
            | Some c => if has_device_time_result c
                        then [MTimeResult (mac_dev_time (s_mac s)) (utils_gps_to_unix (b32 pld 0)) (get pld 4)]
                        else []
            | None => []
            end).

Lemma is_valid_dr_spec d : 0 <= d < 256 -> is_valid_dr d = (d <? 6).
Proof. intro. unfold is_valid_dr. rewrite u8_id by assumption. reflexivity. Qed.
Lemma is_valid_tx_power_spec d : is_valid_tx_power d = (d <? 8).
Proof. reflexivity. Qed.

Lemma shr4_land15 p : is_byte p -> Z.land (Z.shiftr p 4) 15 = p / 16.
Proof.
  unfold is_byte. intro. rewrite shiftr_div, land_15 by lia. change (2 ^ 4) with 16.
  apply Z.mod_small. split; [apply Z.div_pos; lia|apply Z.div_lt_upper_bound; lia].
Qed.

Lemma link_check_ok pld h s : 2 <= len pld ->
  link_check pld h s = Ok (ph_link_check pld s).
Proof.
  intro H. unfold link_check, ph_link_check, get_mac. rewrite bind_gets.
  destruct (mac_cbs (s_mac s)) as [c|]; [|reflexivity].
  destruct (has_link_check_result c); [|reflexivity].
  erewrite bind_ok0; [|apply arr_get_ok; lia].
  erewrite bind_ok0; [|apply arr_get_ok; lia]. reflexivity.
Qed.

Lemma lor_7bits (a b c : bool) :
  Z.lor (Z.lor (if a then 2 else 0) (if b then 1 else 0)) (if c then 4 else 0) =
  (if a then 2 else 0) + (if b then 1 else 0) + (if c then 4 else 0).
Proof. destruct a, b, c; reflexivity. Qed.

Lemma get_byte (pld : list Z) i : bytes_ok pld -> 0 <= get pld i < 256.
Proof. intro. apply bytes_get. assumption. Qed.

Lemma link_adr_ok pld h s : Inv s -> uw_region (s_stk s) <> None -> bytes_ok pld -> 4 <= len pld ->
  link_adr pld h s = Ok (ph_link_adr pld s).
Proof.
  intros [I1 I2 I3 I4 I5 I6] Hr Hb Hl. unfold link_adr.
  pose proof (get_byte pld 0 Hb). pose proof (get_byte pld 1 Hb).
  pose proof (get_byte pld 2 Hb). pose proof (get_byte pld 3 Hb).
  do 4 (erewrite bind_ok0; [|apply arr_get_ok; lia]).
  rewrite le16 by (unfold is_byte; lia). rewrite u16_id by lia.
  unfold adr_handle_link_req, get_stk. rewrite bind_gets.
  destruct (uw_region (s_stk s)) as [r|] eqn:Er; [|congruence]. cbv zeta.
  rewrite shr4_land15 by (unfold is_byte; lia).
  rewrite (shiftr_div (get pld 3)) by lia. change (2 ^ 4) with 16.
  rewrite !land_15.
  erewrite bind_ok0; [|apply region_mask_dry_ok; [reflexivity|exact I1]].
  rewrite is_valid_dr_spec by (pose proof (Z.div_lt_upper_bound (get pld 0) 16 16); pose proof (Z.div_pos (get pld 0) 16); lia).
  rewrite is_valid_tx_power_spec.
  unfold ph_link_adr. cbv zeta.
  set (ch_mask := get pld 1 + 256 * get pld 2). set (cntl := Z.land (get pld 3 / 16) 4).
  match goal with |- context [if get pld 0 mod 16 <? 8 then ?a else ?b] =>
    replace (if get pld 0 mod 16 <? 8 then a else b)
      with (adr_status (get pld 0) ch_mask cntl (s_ch s))
      by (unfold adr_status; destruct (get pld 0 / 16 <? 6), (p_mask_ok ch_mask cntl (s_ch s)),
          (get pld 0 mod 16 <? 8); reflexivity) end.
  set (r7 := adr_status _ _ _ _).
  destruct (Z.eqb_spec r7 7) as [H7|H7].
  - set (nb := get pld 3 mod 16).
    assert (Hnb : 0 <= nb < 16) by (apply Z.mod_pos_bound; lia).
    rewrite bind_bind.
    assert (Hset : exists ok : bool, set_nb_trans nb h s = Ok (ok, (if ok then on_stk (set_uw_nb_trans nb) s else s), [])
                  /\ ok = negb (nb =? 0)).
    { unfold set_nb_trans, NB_TRANS_MIN, NB_TRANS_MAX.
      destruct (Z.eqb_spec nb 0).
      - exists false. split; [|reflexivity]. replace ((1 <=? nb) && (nb <=? 15)) with false by lia. reflexivity.
      - exists true. split; [|reflexivity]. replace ((1 <=? nb) && (nb <=? 15)) with true by lia. reflexivity. }
    destruct Hset as (ok & Hset & Hok). erewrite bind_ok0; [|exact Hset].
    set (s1 := on_stk (fun k => set_uw_nb_trans (if nb =? 0 then default_nb_trans k else nb) k) s).
    assert (Hs1 : (if negb ok then reset_nb_trans else ret tt) h
                    (if ok then on_stk (set_uw_nb_trans nb) s else s) = Ok (tt, s1, [])).
    { rewrite Hok. unfold s1. destruct (nb =? 0); reflexivity. }
    rewrite bind_bind. erewrite bind_ok0; [|exact Hs1].
    assert (Htx : get pld 0 mod 16 <? 8 = true).
    { unfold r7, adr_status in H7.
      destruct (get pld 0 / 16 <? 6), (p_mask_ok ch_mask cntl (s_ch s)), (get pld 0 mod 16 <? 8); try reflexivity; cbn in H7; discriminate. }
    unfold set_tx_power. rewrite is_valid_tx_power_spec, Htx.
    rewrite !bind_bind. unfold mod_stk at 1. rewrite bind_modify, bind_ret.
    unfold mod_ses at 1. rewrite bind_bind, bind_modify, bind_bind.
    erewrite bind_ok0; [|apply region_mask_apply_ok; [reflexivity|exact I1]].
    rewrite bind_ret.
    unfold CID_LINK_ADR. erewrite mac_enqueue_ok; [|reflexivity|exact I3|cbn; lia].
    reflexivity.
  - rewrite bind_ret. unfold CID_LINK_ADR.
    erewrite mac_enqueue_ok; [|reflexivity|exact I3|cbn; lia]. reflexivity.
Qed.

Lemma duty_cycle_ok pld h s : Inv s -> duty_cycle pld h s = Ok (ph_duty pld s).
Proof.
  intros [I1 I2 I3 I4 I5 I6]. unfold duty_cycle, CID_DUTY_CYCLE.
  erewrite mac_enqueue_ok; [|reflexivity|exact I3|cbn; lia]. reflexivity.
Qed.

Lemma b24_range pld i : bytes_ok pld -> 0 <= b24 pld i < 16777216.
Proof.
  intro Hb. unfold b24. pose proof (get_byte pld i Hb). pose proof (get_byte pld (i+1) Hb).
  pose proof (get_byte pld (i+2) Hb). lia.
Qed.
Lemma b32_range pld i : bytes_ok pld -> 0 <= b32 pld i < 4294967296.
Proof.
  intro Hb. unfold b32. pose proof (get_byte pld i Hb). pose proof (get_byte pld (i+1) Hb).
  pose proof (get_byte pld (i+2) Hb). pose proof (get_byte pld (i+3) Hb). lia.
Qed.

Lemma rx_param_setup_ok pld h s : Inv s -> bytes_ok pld -> 4 <= len pld ->
  rx_param_setup pld h s = Ok (ph_rx_param pld s).
Proof.
  intros [I1 I2 I3 I4 I5 I6] Hb Hl. unfold rx_param_setup.
  pose proof (get_byte pld 0 Hb). pose proof (get_byte pld 1 Hb).
  pose proof (get_byte pld 2 Hb). pose proof (get_byte pld 3 Hb).
  do 4 (erewrite bind_ok0; [|apply arr_get_ok; lia]). cbv zeta.
  rewrite le24 by (unfold is_byte; lia).
  pose proof (b24_range pld 1 Hb) as Hr. unfold b24 in Hr.
  change (1 + 1) with 2 in Hr. change (1 + 2) with 3 in Hr.
  rewrite u32_id by lia. rewrite land_15, land_7, shiftr_div by lia. change (2 ^ 4) with 16.
  pose proof (Z.mod_pos_bound (get pld 0 / 16) 8 ltac:(lia)).
  pose proof (Z.mod_pos_bound (get pld 0) 16 ltac:(lia)).
  rewrite !is_valid_dr_spec by lia.
  unfold ph_rx_param. cbv zeta. unfold b24. change (1 + 1) with 2. change (1 + 2) with 3.
  set (freq := (get pld 1 + 256 * get pld 2 + 65536 * get pld 3) * 100) in *.
  set (off := get pld 0 / 16 mod 8) in *. set (dr := get pld 0 mod 16) in *.
  match goal with |- context [if is_valid_frequency freq then ?a else ?b] =>
    replace (if is_valid_frequency freq then a else b) with (rxp_status off dr freq)
      by (unfold rxp_status; destruct (off <? 6), (dr <? 6), (is_valid_frequency freq); reflexivity) end.
  destruct (Z.eqb_spec (rxp_status off dr freq) 7) as [H7|H7].
  - assert (HH3 : off <? 6 = true /\ dr <? 6 = true /\ is_valid_frequency freq = true).
    { unfold rxp_status in H7. destruct (off <? 6), (dr <? 6), (is_valid_frequency freq); try discriminate; auto. }
    destruct HH3 as (A1 & A2 & A3).
    unfold uwan_set_rx1_dr_offset, uwan_set_rx2. rewrite !is_valid_dr_spec, A1, A2, A3 by lia. cbn [negb].
    rewrite !bind_bind. unfold mod_stk. rewrite bind_modify, bind_ret, bind_bind, bind_bind, bind_modify, bind_bind, bind_modify, !bind_ret.
    unfold CID_RX_PARAM_SETUP. erewrite mac_enqueue_ok; [|reflexivity|exact I3|cbn; lia]. reflexivity.
  - rewrite bind_ret. unfold CID_RX_PARAM_SETUP.
    erewrite mac_enqueue_ok; [|reflexivity|exact I3|cbn; lia]. reflexivity.
Qed.

Lemma dev_status_ok E pld h s : Inv s -> dev_status E pld h s = Ok (ph_dev_status E h pld s).
Proof.
  intros [I1 I2 I3 I4 I5 I6]. unfold dev_status, get_snr, get_stk, get_mac.
  rewrite bind_gets. cbv zeta. rewrite bind_gets.
  assert (Hs : u8 (Z.land (current_snr (s_stk s)) 63) = current_snr (s_stk s) mod 64).
  { rewrite land_63. apply u8_id. pose proof (Z.mod_pos_bound (current_snr (s_stk s)) 64). lia. }
  rewrite Hs. unfold ph_dev_status, enq, CID_DEV_STATUS.
  destruct (mac_cbs (s_mac s)) as [c|].
  - destruct (has_get_battery_level c).
    + rewrite bind_query. erewrite mac_enqueue_ok; [|reflexivity|exact I3|cbn; lia]. reflexivity.
    + rewrite bind_ret. erewrite mac_enqueue_ok; [|reflexivity|exact I3|cbn; lia]. reflexivity.
  - rewrite bind_ret. erewrite mac_enqueue_ok; [|reflexivity|exact I3|cbn; lia]. reflexivity.
Qed.

Lemma new_channel_ok pld h s : Inv s -> bytes_ok pld -> 5 <= len pld ->
  new_channel pld h s = Ok (ph_new_channel pld s).
Proof.
  intros [I1 I2 I3 I4 I5 I6] Hb Hl. unfold new_channel.
  pose proof (get_byte pld 0 Hb). pose proof (get_byte pld 1 Hb).
  pose proof (get_byte pld 2 Hb). pose proof (get_byte pld 3 Hb). pose proof (get_byte pld 4 Hb).
  do 4 (erewrite bind_ok0; [|apply arr_get_ok; lia]). cbv zeta.
  erewrite bind_ok0; [|apply arr_get_ok; lia].
  rewrite le24 by (unfold is_byte; lia).
  pose proof (b24_range pld 1 Hb) as Hr. unfold b24 in Hr.
  change (1 + 1) with 2 in Hr. change (1 + 2) with 3 in Hr.
  rewrite u32_id by lia.
  unfold ph_new_channel. cbv zeta. unfold b24. change (1 + 1) with 2. change (1 + 2) with 3.
  set (freq := (get pld 1 + 256 * get pld 2 + 65536 * get pld 3) * 100) in *.
  set (i := get pld 0) in *.
  destruct (is_valid_frequency freq) eqn:Ef; destruct (get pld 4 =? 80) eqn:Ed; cbn -[uwan_set_channel mac_enqueue bind].
  1:{ rewrite bind_bind. erewrite bind_ok0; [|apply uwan_set_channel_ok; [reflexivity|exact I1|lia]].
      unfold r_set. destruct (Z.leb_spec 16 i); destruct (Z.ltb_spec i 16); try lia; cbn [fst snd is_ERR_NO negb].
      - rewrite bind_ret, with_ch_self. unfold CID_NEW_CHANNEL.
        erewrite mac_enqueue_ok; [|reflexivity|exact I3|cbn; lia]. reflexivity.
      - rewrite Ef. cbn [negb fst snd is_ERR_NO]. rewrite bind_ret. unfold CID_NEW_CHANNEL.
        erewrite mac_enqueue_ok; [|reflexivity|exact I3|cbn; lia]. reflexivity. }
  all: rewrite bind_ret; unfold CID_NEW_CHANNEL;
       erewrite mac_enqueue_ok; [|reflexivity|exact I3|cbn; lia]; reflexivity.
Qed.

Lemma rx_timing_setup_ok pld h s : Inv s -> bytes_ok pld -> 1 <= len pld ->
  rx_timing_setup pld h s = Ok (ph_rx_timing pld s).
Proof.
  intros [I1 I2 I3 I4 I5 I6] Hb Hl. unfold rx_timing_setup.
  erewrite bind_ok0; [|apply arr_get_ok; lia]. cbv zeta. rewrite land_15.
  unfold ph_rx_timing. cbv zeta. set (d := if get pld 0 mod 16 =? 0 then 1 else get pld 0 mod 16).
  assert (1 <= d <= 15).
  { unfold d. pose proof (Z.mod_pos_bound (get pld 0) 16 ltac:(lia)).
    destruct (Z.eqb_spec (get pld 0 mod 16) 0); lia. }
  unfold uwan_set_rx1_delay. replace ((1 <=? d) && (d <=? 15)) with true by lia.
  rewrite bind_bind. unfold mod_stk. rewrite bind_modify, bind_ret, u32_id by lia.
  unfold CID_RX_TIMING_SETUP. erewrite mac_enqueue_ok; [|reflexivity|exact I3|cbn; lia].
  replace (d * 1000) with (1000 * d) by lia. reflexivity.
Qed.

Lemma device_time_ok E pld h s : bytes_ok pld -> 5 <= len pld ->
  e_strict_shl E = false -> device_time E pld h s = Ok (ph_device_time pld s).
Proof.
  intros Hb Hl HE. unfold device_time, ph_device_time, get_mac. rewrite bind_gets.
  destruct (mac_cbs (s_mac s)) as [c|]; [|reflexivity].
  destruct (has_device_time_result c); [|reflexivity].
  do 4 (erewrite bind_ok0; [|apply arr_get_ok; lia]).
  unfold shl24. rewrite HE. cbn [andb]. rewrite bind_ret. cbv zeta.
  rewrite le32 by (apply bytes_get; exact Hb).
  pose proof (b32_range pld 0 Hb) as Hr. unfold b32 in *.
  change (0 + 1) with 1 in *. change (0 + 2) with 2 in *. change (0 + 3) with 3 in *.
  rewrite u32_id by lia.
  erewrite bind_ok0; [|apply arr_get_ok; lia]. reflexivity.
Qed.

(** ** What MAC commands cannot touch *)
Record macfr (s s' : st) : Prop := Mk_macfr {
  mf_adr : s_adr s' = s_adr s;
  mf_cs : s_cs s' = s_cs s;
  mf_save : mac_save_dev_time (s_mac s') = mac_save_dev_time (s_mac s);
  mf_time : mac_dev_time (s_mac s') = mac_dev_time (s_mac s);
  mf_cbs : mac_cbs (s_mac s') = mac_cbs (s_mac s);
  mf_joined : is_joined (s_ses s') = is_joined (s_ses s);
  mf_ack : ack_required (s_ses s') = ack_required (s_ses s);
  mf_addr : dev_addr (s_ses s') = dev_addr (s_ses s);
  mf_up : f_cnt_up (s_ses s') = f_cnt_up (s_ses s);
  mf_down : f_cnt_down (s_ses s') = f_cnt_down (s_ses s);
  mf_nwk : nwk_s_key (s_ses s') = nwk_s_key (s_ses s);
  mf_app : app_s_key (s_ses s') = app_s_key (s_ses s);
  mf_region : uw_region (s_stk s') = uw_region (s_stk s);
  mf_params : pkt_params (s_stk s') = pkt_params (s_stk s);
  mf_frame : uw_frame (s_stk s') = uw_frame (s_stk s);
  mf_state : uw_state (s_stk s') = uw_state (s_stk s);
  mf_rx1 : uw_rx1_delay (s_stk s') = uw_rx1_delay (s_stk s);
  mf_rx2 : uw_rx2_delay (s_stk s') = uw_rx2_delay (s_stk s);
  mf_join : uw_is_join_state (s_stk s') = uw_is_join_state (s_stk s);
  mf_nonce : uw_dev_nonce (s_stk s') = uw_dev_nonce (s_stk s);
  mf_deui : uw_dev_eui (s_stk s') = uw_dev_eui (s_stk s);
  mf_aeui : uw_app_eui (s_stk s') = uw_app_eui (s_stk s);
  mf_key : uw_app_key (s_stk s') = uw_app_key (s_stk s);
  mf_ddr : default_dr (s_stk s') = default_dr (s_stk s);
  mf_dnb : default_nb_trans (s_stk s') = default_nb_trans (s_stk s);
  mf_dtxp : default_tx_power (s_stk s') = default_tx_power (s_stk s);
  mf_eirp : default_max_eirp (s_stk s') = default_max_eirp (s_stk s);
  mf_snr : current_snr (s_stk s') = current_snr (s_stk s)
}.
Lemma macfr_refl s : macfr s s.
Proof. constructor; reflexivity. Qed.
Lemma macfr_trans a b c : macfr a b -> macfr b c -> macfr a c.
Proof. intros [] []. constructor; congruence. Qed.

(** events a MAC command may cause *)
Definition is_mac_ev (e : ev) : bool :=
  match e with MBattery _ | MLinkCheck _ _ | MTimeResult _ _ _ => true | _ => false end.

(** command length table *)
Definition p_size (cid : Z) : option Z :=
  if cid =? 2 then Some 2 else if cid =? 3 then Some 4 else if cid =? 4 then Some 1
  else if cid =? 5 then Some 4 else if cid =? 6 then Some 0 else if cid =? 7 then Some 5
  else if cid =? 8 then Some 1 else if cid =? 9 then Some 1 else if cid =? 10 then Some 4
  else if cid =? 13 then Some 5 else None.
Definition p_cmd (E : env) (h : list ev) (cid : Z) (pld : list Z) (s : st) : hres :=
  if cid =? 2 then ph_link_check pld s else if cid =? 3 then ph_link_adr pld s
  else if cid =? 4 then ph_duty pld s else if cid =? 5 then ph_rx_param pld s
  else if cid =? 6 then ph_dev_status E h pld s else if cid =? 7 then ph_new_channel pld s
  else if cid =? 8 then ph_rx_timing pld s
  else if cid =? 13 then ph_device_time pld s else (true, s, []).

Lemma p_size_range cid n : p_size cid = Some n -> 0 <= n <= 5.
Proof.
  unfold p_size. repeat (destruct (_ =? _); [intro H; injection H as <-; lia|]). discriminate.
Qed.

(** an update of the ranges that MAC commands may set *)
Lemma stk_ok_mac k off dd nb txp rf rdr : stk_ok k ->
  0 <= off < 6 -> 1 <= dd <= 15 -> 1 <= nb <= 15 -> 0 <= txp < 8 ->
  860000000 <= rf <= 870000000 -> 0 <= rdr < 6 ->
  stk_ok (set_uw_rx1_offset off k) /\ stk_ok (set_default_rx1_delay (1000 * dd) k) /\
  stk_ok (set_uw_tx_power txp (set_uw_nb_trans nb k)) /\
  stk_ok (set_uw_rx2_dr rdr (set_uw_rx2_frequency rf (set_uw_rx1_offset off k))).
Proof.
  intros K H1 H2 H3 H4 H5 H6. destruct K.
  split; [|split; [|split]]; constructor; cbn; try assumption; try lia; eauto.
  intro Hx. specialize (tk_init0 Hx). intuition lia.
Qed.

Lemma enq_Inv cid data s : Inv s -> is_byte cid -> bytes_ok data ->
  Inv (snd (fst (enq cid data s))) /\ macfr s (snd (fst (enq cid data s))).
Proof.
  intros [I1 I2 I3 I4 I5 I6] Hc Hd. unfold enq. cbn [fst snd].
  destruct (p_enq_frame cid data (s_mac s)) as (F1 & F2 & F3).
  split.
  - constructor; try assumption. apply p_enq_mac_ok; assumption.
  - constructor; try reflexivity; assumption.
Qed.

Lemma ses_ok_dr r d : ses_ok r -> 0 <= d < 6 -> ses_ok (set_ses_dr d r).
Proof. intros [] H. constructor; assumption. Qed.

Lemma p_cmd_Inv E h cid pld s : env_ok E -> Inv s -> bytes_ok pld ->
  let '(b, s', es) := p_cmd E h cid pld s in
  Inv s' /\ macfr s s' /\ Forall (fun e => is_mac_ev e = true) es.
Proof.
  intros HE HI Hb. pose proof HI as [I1 I2 I3 I4 I5 I6]. pose proof I5 as HK.
  unfold p_cmd.
  pose proof (get_byte pld 0 Hb) as G0. pose proof (get_byte pld 1 Hb) as G1.
  pose proof (get_byte pld 2 Hb) as G2. pose proof (get_byte pld 3 Hb) as G3. pose proof (get_byte pld 4 Hb) as G4.
  assert (Gd : 0 <= get pld 0 / 16 < 16)
    by (split; [apply Z.div_pos; lia|apply Z.div_lt_upper_bound; lia]).
  pose proof (Z.mod_pos_bound (get pld 0) 16 ltac:(lia)) as Gm.
  assert (Hfin : forall cid data s1 s', is_byte cid -> bytes_ok data -> Inv s1 -> macfr s s1 ->
            s' = snd (fst (enq cid data s1)) -> Inv s' /\ macfr s s').
  { intros c0 d0 s1 s' A1 A2 A3 A4 ->. destruct (enq_Inv c0 d0 s1 A3 A1 A2) as [B1 B2].
    split; [exact B1|]. eapply macfr_trans; eassumption. }
  destruct (cid =? 2).
  { unfold ph_link_check. split; [exact HI|split; [apply macfr_refl|]].
    destruct (mac_cbs (s_mac s)) as [c|]; [destruct (has_link_check_result c)|]; repeat constructor. }
  destruct (cid =? 3).
  { unfold ph_link_adr. set (cntl := Z.land _ 4). set (cm := get pld 1 + 256 * get pld 2).
    set (r := adr_status _ _ _ _). cbv zeta.
    match goal with |- context [enq 3 [r] ?x] => set (s1 := x) end.
    assert (X : Inv s1 /\ macfr s s1).
    { unfold s1. destruct (Z.eqb_spec r 7) as [H7|H7]; [|split; [exact HI|apply macfr_refl]].
      assert (A1 : get pld 0 / 16 < 6 /\ get pld 0 mod 16 < 8).
      { unfold r, adr_status in H7.
        destruct (Z.ltb_spec (get pld 0 / 16) 6), (p_mask_ok cm cntl (s_ch s)),
          (Z.ltb_spec (get pld 0 mod 16) 8); try discriminate; auto. }
      split; [|constructor; reflexivity].
      constructor; try assumption.
      - cbn. apply p_mask_chans_ok. exact I1.
      - cbn. apply ses_ok_dr; [exact I4|lia].
      - cbn. pose proof (Z.mod_pos_bound (get pld 3) 16 ltac:(lia)).
        assert (1 <= (if get pld 3 mod 16 =? 0 then default_nb_trans (s_stk s) else get pld 3 mod 16) <= 15).
        { destruct (Z.eqb_spec (get pld 3 mod 16) 0); [apply I5|lia]. }
        eapply (stk_ok_mac (s_stk s) 0 1 _ _ 860000000 0 I5); lia. }
    assert (Hr : is_byte r).
    { unfold r, adr_status, is_byte.
      destruct (get pld 0 / 16 <? 6), (p_mask_ok cm cntl (s_ch s)), (get pld 0 mod 16 <? 8); lia. }
    destruct X as [X1 X2].
    destruct (enq 3 [r] s1) as [[b s'] es] eqn:Eq.
    assert (Hes : es = []) by (unfold enq in Eq; congruence). subst es.
    destruct (Hfin 3 [r] s1 s') as [Y1 Y2]; [unfold is_byte; lia|repeat constructor; exact (proj1 Hr) || exact (proj2 Hr)|exact X1|exact X2|rewrite Eq; reflexivity|].
    split; [exact Y1|split; [exact Y2|constructor]]. }
  destruct (cid =? 4).
  { unfold ph_duty. destruct (enq 4 [] s) as [[b s'] es] eqn:Eq.
    assert (Hes : es = []) by (unfold enq in Eq; congruence). subst es.
    destruct (Hfin 4 [] s s') as [Y1 Y2]; [unfold is_byte; lia|constructor|exact HI|apply macfr_refl|rewrite Eq; reflexivity|].
    split; [exact Y1|split; [exact Y2|constructor]]. }
  destruct (cid =? 5).
  { unfold ph_rx_param. cbv zeta. pose proof (b24_range pld 1 Hb) as Gf.
    set (freq := b24 pld 1 * 100) in *. set (off := get pld 0 / 16 mod 8). set (dr := get pld 0 mod 16) in *.
    pose proof (Z.mod_pos_bound (get pld 0 / 16) 8 ltac:(lia)) as Go. fold off in Go.
    match goal with |- context [enq 5 [rxp_status off dr freq] ?x] => set (s1 := x) end.
    assert (X : Inv s1 /\ macfr s s1).
    { unfold s1. destruct (Z.eqb_spec (rxp_status off dr freq) 7) as [H7|H7]; [|split; [exact HI|apply macfr_refl]].
      assert (A1 : off < 6 /\ dr < 6 /\ is_valid_frequency freq = true).
      { unfold rxp_status in H7.
        destruct (Z.ltb_spec off 6), (Z.ltb_spec dr 6), (is_valid_frequency freq); try discriminate; auto. }
      destruct A1 as (A1 & A2 & A3). apply is_valid_frequency_spec in A3.
      split; [|constructor; reflexivity].
      constructor; try assumption. cbn.
      eapply (stk_ok_mac (s_stk s) off 1 1 0 freq dr I5); lia. }
    assert (Hr : is_byte (rxp_status off dr freq)).
    { unfold rxp_status, is_byte. destruct (off <? 6), (dr <? 6), (is_valid_frequency freq); lia. }
    destruct X as [X1 X2].
    destruct (enq 5 [rxp_status off dr freq] s1) as [[b s'] es] eqn:Eq.
    assert (Hes : es = []) by (unfold enq in Eq; congruence). subst es.
    destruct (Hfin 5 [rxp_status off dr freq] s1 s') as [Y1 Y2]; [unfold is_byte; lia|repeat constructor; exact (proj1 Hr) || exact (proj2 Hr)|exact X1|exact X2|rewrite Eq; reflexivity|].
    split; [exact Y1|split; [exact Y2|constructor]]. }
  destruct (cid =? 6).
  { unfold ph_dev_status. set (q := match mac_cbs (s_mac s) with Some c => _ | None => _ end).
    set (lvl := if q then _ else _).
    assert (Hl : is_byte lvl) by (unfold lvl, is_byte; destruct q; [apply (ok_battery E HE)|lia]).
    pose proof (Z.mod_pos_bound (current_snr (s_stk s)) 64 ltac:(lia)) as Gs.
    destruct (enq 6 [lvl; current_snr (s_stk s) mod 64] s) as [[b s'] es] eqn:Eq.
    destruct (Hfin 6 [lvl; current_snr (s_stk s) mod 64] s s') as [Y1 Y2].
    - unfold is_byte; lia.
    - constructor; [exact Hl|]. constructor; [unfold is_byte; lia|constructor].
    - exact HI.
    - apply macfr_refl.
    - rewrite Eq. reflexivity.
    - split; [exact Y1|split; [exact Y2|]]. destruct q; repeat constructor. }
  destruct (cid =? 7).
  { unfold ph_new_channel. cbv zeta. pose proof (b24_range pld 1 Hb) as Gf.
    set (freq := b24 pld 1 * 100) in *. set (i := get pld 0) in *.
    set (r0 := (if is_valid_frequency freq then 1 else 0) + _).
    set (r := if r0 =? 3 then _ else r0).
    match goal with |- context [enq 7 [r] ?x] => set (s1 := x) end.
    assert (X : Inv s1 /\ macfr s s1).
    { unfold s1. destruct (Z.eqb_spec r 3) as [H7|H7]; [|split; [exact HI|apply macfr_refl]].
      assert (A1 : i < 16 /\ is_valid_frequency freq = true).
      { unfold r, r0 in H7. destruct (is_valid_frequency freq), (get pld 4 =? 80), (Z.ltb_spec i 16); try discriminate; auto. }
      destruct A1 as (A1 & A3). apply is_valid_frequency_spec in A3.
      split; [|constructor; reflexivity].
      constructor; try assumption. cbn. apply p_set_spec; [exact I1|lia|exact A3]. }
    assert (Hr : is_byte r).
    { unfold r, r0, is_byte. destruct (is_valid_frequency freq), (get pld 4 =? 80), (i <? 16); cbn; lia. }
    destruct X as [X1 X2].
    destruct (enq 7 [r] s1) as [[b s'] es] eqn:Eq.
    assert (Hes : es = []) by (unfold enq in Eq; congruence). subst es.
    destruct (Hfin 7 [r] s1 s') as [Y1 Y2]; [unfold is_byte; lia|repeat constructor; exact (proj1 Hr) || exact (proj2 Hr)|exact X1|exact X2|rewrite Eq; reflexivity|].
    split; [exact Y1|split; [exact Y2|constructor]]. }
  destruct (cid =? 8).
  { unfold ph_rx_timing. cbv zeta.
    set (d := if get pld 0 mod 16 =? 0 then 1 else get pld 0 mod 16).
    assert (Hd : 1 <= d <= 15) by (unfold d; destruct (Z.eqb_spec (get pld 0 mod 16) 0); lia).
    set (s1 := on_stk _ s).
    assert (X : Inv s1 /\ macfr s s1).
    { unfold s1. split; [|constructor; reflexivity]. constructor; try assumption. cbn.
      eapply (stk_ok_mac (s_stk s) 0 d 1 0 860000000 0 I5); lia. }
    destruct X as [X1 X2].
    destruct (enq 8 [] s1) as [[b s'] es] eqn:Eq.
    assert (Hes : es = []) by (unfold enq in Eq; congruence). subst es.
    destruct (Hfin 8 [] s1 s') as [Y1 Y2]; [unfold is_byte; lia|constructor|exact X1|exact X2|rewrite Eq; reflexivity|].
    split; [exact Y1|split; [exact Y2|constructor]]. }
  destruct (cid =? 13).
  { unfold ph_device_time. split; [exact HI|split; [apply macfr_refl|]].
    destruct (mac_cbs (s_mac s)) as [c|]; [destruct (has_device_time_result c)|]; repeat constructor. }
  split; [exact HI|split; [apply macfr_refl|constructor]].
Qed.

(** ** The command loop *)
Fixpoint p_loop (E : env) (fuel : nat) (h : list ev) (rest : list Z) (s : st) : st * list ev :=
  match fuel, rest with
  | S fuel', cid :: rest' =>
      match p_size cid with
      | None => (s, [])
      | Some n =>
          if n <=? len rest' then
            let '(b, s1, e1) := p_cmd E h cid rest' s in
            if (b : bool) then
              let '(s2, e2) := p_loop E fuel' (h ++ e1) (skipn (Z.to_nat n) rest') s1 in
              (s2, e1 ++ e2)
            else (s1, e1)
          else (s, [])
      end
  | _, _ => (s, [])
  end.

Lemma mac_dispatch_ok E cid rest h s : env_ok E -> e_strict_shl E = false -> Inv s ->
  uw_region (s_stk s) <> None -> bytes_ok rest ->
  mac_dispatch (mac_commands E) cid rest h s =
    match p_size cid with
    | None => Ok (false, rest, s, [])
    | Some n =>
        if n <=? len rest then
          let '(b, s1, e1) := p_cmd E h cid rest s in
          Ok (b, skipn (Z.to_nat n) rest, s1, e1)
        else Ok (false, rest, s, [])
    end.
Proof.
  intros HE Hns HI Hr Hb. unfold p_size, p_cmd.
  unfold mac_commands, CID_LINK_CHECK, CID_LINK_ADR, CID_DUTY_CYCLE, CID_RX_PARAM_SETUP,
    CID_DEV_STATUS, CID_NEW_CHANNEL, CID_RX_TIMING_SETUP, CID_TX_PARAM_SETUP, CID_DI_CHANNEL, CID_DEVICE_TIME.
  cbn [mac_dispatch].
  destruct (cid =? 2).
  { destruct (Z.leb_spec 2 (len rest)); [|reflexivity].
    erewrite bind_ok; [|rewrite link_check_ok by assumption; reflexivity].
    cbn. rewrite app_nil_r. reflexivity. }
  destruct (cid =? 3).
  { destruct (Z.leb_spec 4 (len rest)); [|reflexivity].
    destruct (ph_link_adr rest s) as [[b s1] e1] eqn:Eq.
    erewrite bind_ok; [|rewrite link_adr_ok by assumption; rewrite Eq; reflexivity].
    cbn. rewrite app_nil_r. reflexivity. }
  destruct (cid =? 4).
  { destruct (Z.leb_spec 1 (len rest)); [|reflexivity].
    destruct (ph_duty rest s) as [[b s1] e1] eqn:Eq.
    erewrite bind_ok; [|rewrite duty_cycle_ok by assumption; rewrite Eq; reflexivity].
    cbn. rewrite app_nil_r. reflexivity. }
  destruct (cid =? 5).
  { destruct (Z.leb_spec 4 (len rest)); [|reflexivity].
    destruct (ph_rx_param rest s) as [[b s1] e1] eqn:Eq.
    erewrite bind_ok; [|rewrite rx_param_setup_ok by assumption; rewrite Eq; reflexivity].
    cbn. rewrite app_nil_r. reflexivity. }
  destruct (cid =? 6).
  { destruct (Z.leb_spec 0 (len rest)); [|reflexivity].
    destruct (ph_dev_status E h rest s) as [[b s1] e1] eqn:Eq.
    erewrite bind_ok; [|rewrite dev_status_ok by assumption; rewrite Eq; reflexivity].
    cbn. rewrite app_nil_r. reflexivity. }
  destruct (cid =? 7).
  { destruct (Z.leb_spec 5 (len rest)); [|reflexivity].
    destruct (ph_new_channel rest s) as [[b s1] e1] eqn:Eq.
    erewrite bind_ok; [|rewrite new_channel_ok by assumption; rewrite Eq; reflexivity].
    cbn. rewrite app_nil_r. reflexivity. }
  destruct (cid =? 8).
  { destruct (Z.leb_spec 1 (len rest)); [|reflexivity].
    destruct (ph_rx_timing rest s) as [[b s1] e1] eqn:Eq.
    erewrite bind_ok; [|rewrite rx_timing_setup_ok by assumption; rewrite Eq; reflexivity].
    cbn. rewrite app_nil_r. reflexivity. }
  destruct (Z.eqb_spec cid 9) as [->|].
  { cbn [Z.eqb]. destruct (Z.leb_spec 1 (len rest)); reflexivity. }
  destruct (Z.eqb_spec cid 10) as [->|].
  { cbn [Z.eqb]. destruct (Z.leb_spec 4 (len rest)); reflexivity. }
  destruct (cid =? 13).
  { destruct (Z.leb_spec 5 (len rest)); [|reflexivity].
    destruct (ph_device_time rest s) as [[b s1] e1] eqn:Eq.
    erewrite bind_ok; [|rewrite device_time_ok by assumption; rewrite Eq; reflexivity].
    cbn. rewrite app_nil_r. reflexivity. }
  reflexivity.
Qed.

Lemma mac_loop_ok E fuel : forall rest h s, env_ok E -> e_strict_shl E = false -> Inv s ->
  uw_region (s_stk s) <> None -> bytes_ok rest -> (length rest <= fuel)%nat ->
  mac_handle_loop E fuel rest h s =
    Ok (tt, fst (p_loop E fuel h rest s), snd (p_loop E fuel h rest s)) /\
  Inv (fst (p_loop E fuel h rest s)) /\ macfr s (fst (p_loop E fuel h rest s)) /\
  Forall (fun e => is_mac_ev e = true) (snd (p_loop E fuel h rest s)).
Proof.
  induction fuel; intros rest h s HE Hns HI Hr Hb Hf.
  { destruct rest; [|cbn in Hf; lia].
    split; [reflexivity|split; [exact HI|split; [apply macfr_refl|constructor]]]. }
  destruct rest as [|cid rest'].
  { split; [reflexivity|split; [exact HI|split; [apply macfr_refl|constructor]]]. }
  cbn [mac_handle_loop p_loop].
  assert (Hb' : bytes_ok rest') by (inversion Hb; assumption).
  pose proof (mac_dispatch_ok E cid rest' h s HE Hns HI Hr Hb') as Hd.
  destruct (p_size cid) as [n|] eqn:En.
  2:{ erewrite bind_ok0; [|exact Hd].
      split; [reflexivity|split; [exact HI|split; [apply macfr_refl|constructor]]]. }
  destruct (Z.leb_spec n (len rest')).
  2:{ erewrite bind_ok0; [|exact Hd].
      split; [reflexivity|split; [exact HI|split; [apply macfr_refl|constructor]]]. }
  pose proof (p_cmd_Inv E h cid rest' s HE HI Hb') as Hc.
  destruct (p_cmd E h cid rest' s) as [[b s1] e1]. destruct Hc as (C1 & C2 & C3).
  erewrite bind_ok; [|exact Hd]. cbn [negb].
  destruct b; cbn [negb].
  - destruct (IHfuel (skipn (Z.to_nat n) rest') (h ++ e1) s1) as (J1 & J2 & J3 & J4); try assumption.
    { rewrite (mf_region _ _ C2). exact Hr. }
    { apply bytes_skipn. exact Hb'. }
    { rewrite skipn_length. cbn in Hf. lia. }
    rewrite J1. destruct (p_loop E fuel (h ++ e1) (skipn (Z.to_nat n) rest') s1) as [s2 e2].
    cbn [fst snd addev] in *. split; [reflexivity|]. split; [exact J2|].
    split; [eapply macfr_trans; eassumption|]. apply Forall_app. auto.
  - cbn. rewrite app_nil_r. auto.
Qed.

Definition p_commands (E : env) (h : list ev) (buf : list Z) (s : st) : st * list ev :=
  p_loop E (length buf) h buf s.
Lemma mac_handle_commands_ok E buf h s : env_ok E -> e_strict_shl E = false -> Inv s ->
  uw_region (s_stk s) <> None -> bytes_ok buf ->
  mac_handle_commands E buf h s =
    Ok (tt, fst (p_commands E h buf s), snd (p_commands E h buf s)) /\
  Inv (fst (p_commands E h buf s)) /\ macfr s (fst (p_commands E h buf s)) /\
  Forall (fun e => is_mac_ev e = true) (snd (p_commands E h buf s)).
Proof. intros. apply mac_loop_ok; auto. Qed.
