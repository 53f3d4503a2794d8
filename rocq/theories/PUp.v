(** PUp.v -- exact descriptions of uwan_send_frame and uwan_join. *)
From Verif Require Export PFrame.

Definition cur_dr (s : st) : Z :=
  if adr_is_enabled (s_adr s) then ses_dr (s_ses s) else default_dr (s_stk s).
Definition p_max (s : st) : Z := dr_max (cur_dr s) - mac_buf_pos (s_mac s).
Definition p_power (s : st) : Z := s8 (default_max_eirp (s_stk s) - 2 * uw_tx_power (s_stk s)).
Definition up_req (s : st) : bool :=
  adr_is_enabled (s_adr s) && negb (ses_dr (s_ses s) =? 0) && (ack_limit (s_adr s) <=? ack_cnt (s_adr s)).
Definition backs_off (s : st) : bool :=
  negb (ses_dr (s_ses s) =? 0) &&
  (ack_limit (s_adr s) + ack_delay (s_adr s) <? u32 (ack_cnt (s_adr s) + 1)).
Definition r_uplink_adr (s : st) : adrst :=
  set_ack_cnt (if backs_off s then 0 else u32 (ack_cnt (s_adr s) + 1)) (s_adr s).
Definition r_uplink_dr (s : st) : Z :=
  if backs_off s then ses_dr (s_ses s) - 1 else ses_dr (s_ses s).

Lemma cur_dr_range s : Inv s -> 0 <= cur_dr s < 6.
Proof.
  intros [Hch Had Hm Hs Hk Hcs]. unfold cur_dr. destruct (adr_is_enabled (s_adr s)).
  - apply Hs.
  - apply Hk.
Qed.
Lemma get_current_dr_ok h s : get_current_dr h s = Ok (cur_dr s, s, []).
Proof.
  unfold get_current_dr, uwan_adr_is_enabled, cur_dr. msteps.
  destruct (adr_is_enabled (s_adr s)); reflexivity.
Qed.
Lemma six d : 0 <= d < 6 -> d = 0 \/ d = 1 \/ d = 2 \/ d = 3 \/ d = 4 \/ d = 5.
Proof. lia. Qed.
Lemma dr_table_ok d h s : 0 <= d < 6 -> arr_get (S := st) (E := ev) uw_dr_table d h s = Ok ((6 - d, 0), s, []).
Proof. intro H. destruct (six d H) as [->|[->|[->|[->|[->| ->]]]]]; reflexivity. Qed.
Lemma max_table_ok d h s : 0 <= d < 6 -> arr_get (S := st) (E := ev) uw_max_app_pld_size d h s = Ok (dr_max d, s, []).
Proof. intro H. destruct (six d H) as [->|[->|[->|[->|[->| ->]]]]]; reflexivity. Qed.
Lemma dr_max_range d : 51 <= dr_max d <= 222.
Proof. unfold dr_max. destruct (d <=? 2); [lia|]. destruct (d =? 3); lia. Qed.
Lemma eight d : 0 <= d < 8 -> d = 0 \/ d = 1 \/ d = 2 \/ d = 3 \/ d = 4 \/ d = 5 \/ d = 6 \/ d = 7.
Proof. lia. Qed.
Lemma power_table_ok d h s : 0 <= d < 8 -> arr_get (S := st) (E := ev) uw_tx_power_table d h s = Ok (2 * d, s, []).
Proof. intro H. destruct (eight d H) as [->|[->|[->|[->|[->|[->|[->| ->]]]]]]]; reflexivity. Qed.

Lemma get_max_ok h s : Inv s -> uwan_get_max_payload_size h s = Ok (p_max s, s, []).
Proof.
  intros HI. pose proof (cur_dr_range s HI) as Hd. pose proof (mk_pos _ (iv_mac _ HI)) as Hp.
  unfold uwan_get_max_payload_size, mac_get_payload_size.
  erewrite bind_ok0; [|apply get_current_dr_ok].
  replace (cur_dr s <? 6) with true by lia.
  erewrite bind_ok0; [|apply max_table_ok; exact Hd]. msteps.
  pose proof (dr_max_range (cur_dr s)).
  replace (mac_buf_pos (s_mac s) <=? dr_max (cur_dr s)) with true by lia.
  rewrite u8_id by lia. reflexivity.
Qed.
Lemma p_max_range s : Inv s -> 36 <= p_max s <= 222.
Proof.
  intro HI. pose proof (mk_pos _ (iv_mac _ HI)). pose proof (dr_max_range (cur_dr s)). unfold p_max. lia.
Qed.

Lemma apply_tx_power_ok h s : 0 <= uw_tx_power (s_stk s) < 8 ->
  apply_tx_power h s = Ok (tt, s, [RSetPower (p_power s)]).
Proof.
  intro H. unfold apply_tx_power. msteps.
  erewrite bind_ok0; [|apply power_table_ok; exact H]. reflexivity.
Qed.
Lemma req_bit_ok h s : adr_get_req_bit h s = Ok (up_req s, s, []).
Proof.
  unfold adr_get_req_bit, up_req, DR_0. msteps.
  destruct (adr_is_enabled (s_adr s)); [|reflexivity].
  destruct (ses_dr (s_ses s) =? 0); reflexivity.
Qed.
Lemma adr_uplink_ok h s :
  adr_handle_uplink h s = Ok (tt, with_adr (r_uplink_adr s) (with_ses (set_ses_dr (r_uplink_dr s) (s_ses s)) s), []).
Proof.
  unfold adr_handle_uplink, r_uplink_adr, r_uplink_dr, DR_0. msteps. cbn [s_adr s_ses on_adr].
  cbn [ack_limit ack_delay ack_cnt set_ack_cnt].
  fold (backs_off s). destruct (backs_off s).
  - reflexivity.
  - destruct s as [? ? ? [] ? ?]. reflexivity.
Qed.

Lemma mac_get_payload_ok h s : mac_ok (s_mac s) ->
  mac_get_payload 15 h s = Ok (queue (s_mac s), on_mac (set_mac_buf_pos 0) s, []).
Proof.
  intros [K1 K2 K3 K4]. unfold mac_get_payload. msteps.
  replace (mac_buf_pos (s_mac s) <=? 15) with true by lia.
  replace (len (mac_buf (s_mac s)) <? mac_buf_pos (s_mac s)) with false by (unfold len; lia).
  msteps. reflexivity.
Qed.

(** FCtrl: the code's bit operations give the weighted sum *)
Lemma fctrl_sum (adr req ack : bool) m : 0 <= m < 16 ->
  Z.lor (let f1 := if adr then Z.lor 0 128 else 0 in
         let f2 := if req then Z.lor f1 64 else f1 in
         if ack then Z.lor f2 32 else f2) (Z.land m 15) = 128 * b2z adr + 64 * b2z req + 32 * b2z ack + m.
Proof.
  intro H.
  assert (Hm : m = 0 \/ m = 1 \/ m = 2 \/ m = 3 \/ m = 4 \/ m = 5 \/ m = 6 \/ m = 7 \/
               m = 8 \/ m = 9 \/ m = 10 \/ m = 11 \/ m = 12 \/ m = 13 \/ m = 14 \/ m = 15) by lia.
  destruct adr, req, ack; repeat (destruct Hm as [->|Hm]; [reflexivity|]); subst m; reflexivity.
Qed.

Definition tx_params (dr : Z) (p : params) : params :=
  Mk_params (6 - dr) 0 (p_cr p) (p_preamble_len p) (p_crc_on p) false (p_implicit_header p).

Definition send_ses (s : st) : session :=
  let r := s_ses s in
  Mk_session (is_joined r) false (r_uplink_dr s) (dev_addr r) (u32 (f_cnt_up r + 1)) (f_cnt_down r)
    (nwk_s_key r) (app_s_key r).
Definition send_stk (frm : list Z) (s : st) : stackst :=
  let k := s_stk s in
  set_uw_state TX
    (set_uw_rx2_delay (u32 (default_rx1_delay k + 1000))
      (set_uw_rx1_delay (default_rx1_delay k)
        (set_uw_frame (over frm (uw_frame k))
          (set_pkt_params (tx_params (cur_dr s) (pkt_params k)) k)))).
Definition send_state (frm : list Z) (s : st) : st :=
  Mk_st (s_ch s) (r_uplink_adr s) (set_mac_buf_pos 0 (s_mac s)) (send_ses s) (send_stk frm s) (s_cs s).

Definition send_frame_bytes (E : env) (port : Z) (payload : list Z) (confirm : bool) (s : st) : list Z :=
  uplink_frame (e_aes E) (e_cmac E) (nwk_s_key (s_ses s)) (app_s_key (s_ses s))
    (dev_addr (s_ses s)) (f_cnt_up (s_ses s)) confirm (adr_is_enabled (s_adr s)) (up_req s)
    (ack_required (s_ses s)) (queue (s_mac s)) port payload.
Definition send_body (E : env) (port : Z) (payload : list Z) (confirm : bool) (s : st) : list Z :=
  data_body (if confirm then MHDR_CONF_UP else MHDR_UNCONF_UP) (dev_addr (s_ses s))
     (up_fctrl (adr_is_enabled (s_adr s)) (up_req s) (ack_required (s_ses s)) (queue (s_mac s)))
     (f_cnt_up (s_ses s)) (queue (s_mac s)) port
     (crypt (e_aes E) (app_s_key (s_ses s)) UP (dev_addr (s_ses s)) (f_cnt_up (s_ses s)) payload).
Definition rand_evs (E : env) (h : list ev) (s : st) : list ev :=
  if uw_channels_max_count (s_ch s) =? 0 then [] else [LRand (e_rand E h)].
Definition next_freq (E : env) (h : list ev) (s : st) : Z := p_next (s_ch s) (e_rand E h).

Definition send_events (E : env) (h : list ev) (port : Z) (payload : list Z) (confirm : bool) (s : st) : list ev :=
  let r := s_ses s in
  let body := send_body E port payload confirm s in
  rand_evs E h s ++
  [RSetFreq (next_freq E h s); RSetup (tx_params (cur_dr s) (pkt_params (s_stk s))); RSetPower (p_power s)] ++
  (if len payload =? 0 then [] else crypt_evs (app_s_key r) UP (dev_addr r) (f_cnt_up r) (length payload)) ++
  mic_evs (nwk_s_key r) (block_b0 UP (dev_addr r) (f_cnt_up r) (len body)) body ++
  [RTx (send_frame_bytes E port payload confirm s)].

Lemma data_body_length mhdr addr fctrl cnt fopts port frm :
  length (data_body mhdr addr fctrl cnt fopts port frm) =
  (8 + length fopts + match frm with [] => 0 | _ => 1 + length frm end)%nat.
Proof.
  unfold data_body. rewrite !app_length, !le_length. cbn [length]. destruct frm; cbn [length]; lia.
Qed.
Lemma queue_length m : mac_ok m -> (length (queue m) <= 15)%nat /\ Z.of_nat (length (queue m)) = mac_buf_pos m.
Proof. intro H. pose proof (queue_len m H). pose proof (mk_pos m H). unfold len in *. lia. Qed.
Lemma send_body_length E port payload confirm s : env_ok E -> Inv s -> len payload <= p_max s ->
  (length (send_body E port payload confirm s) <= 231)%nat.
Proof.
  intros HE HI Hl. unfold send_body. rewrite data_body_length.
  destruct (queue_length (s_mac s) (iv_mac _ HI)) as [Q1 Q2].
  pose proof (p_max_range s HI). unfold p_max in *. pose proof (dr_max_range (cur_dr s)).
  assert (Hc : length (crypt (e_aes E) (app_s_key (s_ses s)) UP (dev_addr (s_ses s)) (f_cnt_up (s_ses s)) payload) = length payload)
    by (apply crypt_length, (ok_aes_len E HE)).
  unfold len in Hl. destruct (crypt _ _ _ _ _ _); cbn [length] in *; lia.
Qed.

Lemma firstn4_length E k m : env_ok E -> length (firstn 4 (e_cmac E k m)) = 4%nat.
Proof. intro HE. rewrite firstn_length, (ok_cmac_len E HE). reflexivity. Qed.

Lemma deref_hal_ok r h s : uw_region (s_stk s) = Some r -> deref_hal h s = Ok (r, s, []).
Proof. intro H. unfold deref_hal. msteps. rewrite H. reflexivity. Qed.

Ltac bstep lem := erewrite bind_ok0; [|lem].

Lemma addev_fold {A} (es : list ev) (r : res (A * st * list ev)) a s e :
  r = Ok (a, s, e) -> addev es r = Ok (a, s, es ++ e).
Proof. intros ->. reflexivity. Qed.

Lemma send_ok E port payload confirm h s : env_ok E -> Inv s -> uw_state (s_stk s) = IDLE ->
  is_byte port -> bytes_ok payload ->
  next_freq E h s <> 0 -> len payload <= p_max s -> ~ (len payload = 0 /\ mac_buf_pos (s_mac s) = 0) ->
  uwan_send_frame E port payload (len payload) confirm h s =
    Ok (ERR_NO, send_state (send_frame_bytes E port payload confirm s) s, send_events E h port payload confirm s).
Proof.
  intros HE HI Hst Hport Hpl Hf Hmax Hne.
  pose proof (cur_dr_range s HI) as Hdr. pose proof (iv_mac _ HI) as Hmac.
  destruct (queue_length (s_mac s) Hmac) as [Q1 Q2]. pose proof (mk_pos _ Hmac) as Hpos.
  pose proof (p_max_range s HI) as Hpm. pose proof (dr_max_range (cur_dr s)) as Hdm.
  pose proof (tk_frame _ (iv_stk _ HI)) as HF.
  pose proof (send_body_length E port payload confirm s HE HI Hmax) as Hbl.
  destruct (tk_init _ (iv_stk _ HI)) as [Hreg _]; [rewrite Hst; discriminate|].
  destruct (uw_region (s_stk s)) as [rg|] eqn:Erg; [clear Hreg|congruence].
  unfold uwan_send_frame. msteps. rewrite Hst.
  erewrite bind_ok; [|apply (p_next_spec E (s_ch s)); [exact HE|reflexivity|apply HI]].
  fold (next_freq E h s). fold (rand_evs E h s).
  assert (Hcr : length (crypt (e_aes E) (app_s_key (s_ses s)) UP (dev_addr (s_ses s)) (f_cnt_up (s_ses s)) payload) = length payload)
    by (apply crypt_length, (ok_aes_len E HE)).
  replace (next_freq E h s =? 0) with false by lia.
  unfold send_events. apply addev_fold. set (h1 := h ++ rand_evs E h s).
  unfold mac_get_payload_size.
  bstep ltac:(apply get_max_ok; exact HI).
  replace (p_max s <? len payload) with false by lia. msteps.
  replace ((len payload =? 0) && (mac_buf_pos (s_mac s) =? 0)) with false by lia.
  bstep ltac:(apply get_current_dr_ok).
  bstep ltac:(apply dr_table_ok; exact Hdr). msteps.
  bstep ltac:(apply (deref_hal_ok rg); exact Erg). msteps.
  match goal with |- context [RSetup (pkt_params (s_stk ?x))] =>
    set (s1 := x); change (pkt_params (s_stk s1)) with (tx_params (cur_dr s) (pkt_params (s_stk s))) end.
  erewrite bind_ok; [|apply apply_tx_power_ok; exact (tk_txp _ (iv_stk _ HI))].
  change (p_power s1) with (p_power s).
  change (h1 ++ ?a) with (h1 ++ a).
  rewrite !addev_addev. cbn [app].
  match goal with |- addev _ (_ ?hh _) = _ => generalize hh; intro h2 end.
  cbv zeta. msteps.
  change (dev_addr (s_ses s1)) with (dev_addr (s_ses s)).
  set (F := uw_frame (s_stk s)) in *.
  set (addr := dev_addr (s_ses s)) in *. set (cnt := f_cnt_up (s_ses s)) in *.
  set (mh := if confirm then MHDR_CONF_UP else MHDR_UNCONF_UP).
  match goal with |- context [frame_puts 0 ?l] =>
    replace l with ([mh] ++ le 4 addr) by (rewrite le4; destruct confirm; reflexivity) end.
  set (p1 := [mh] ++ le 4 addr).
  assert (Hp1 : length p1 = 5%nat) by (unfold p1; rewrite app_length, le_length; reflexivity).
  bstep ltac:(apply (puts_over [] F p1 h2 s1); [reflexivity|exact HF|cbn [length]; lia]).
  cbn [app]. msteps.
  set (s2 := with_frame (over p1 F) s1).
  unfold uwan_adr_is_enabled. msteps. 
  change (adr_is_enabled (s_adr s2)) with (adr_is_enabled (s_adr s)).
  bstep ltac:(apply req_bit_ok). change (up_req s2) with (up_req s). msteps.
  change (ack_required (s_ses s2)) with (ack_required (s_ses s)).
  set (f2 := if up_req s then _ else _).
  set (s3 := on_ses (set_ack_required false) s2).
  erewrite (bind_ok0 _ _ h2 s2 (if ack_required (s_ses s) then Z.lor f2 32 else f2) s3).
  2: { destruct (ack_required (s_ses s)) eqn:Ea; [msteps; reflexivity|].
       unfold s3, s2, s1, on_ses, on_stk, with_frame, ret. cbn [s_ses s_ch s_adr s_mac s_stk s_cs].
       destruct (s_ses s) eqn:Es. cbn in Ea. subst. reflexivity. }
  msteps. change (mac_buf_pos (s_mac s3)) with (mac_buf_pos (s_mac s)).
  unfold f2. rewrite fctrl_sum by lia. clear f2.
  replace (128 * b2z (adr_is_enabled (s_adr s)) + 64 * b2z (up_req s) + 32 * b2z (ack_required (s_ses s)) + mac_buf_pos (s_mac s))
    with (up_fctrl (adr_is_enabled (s_adr s)) (up_req s) (ack_required (s_ses s)) (queue (s_mac s)))
    by (unfold up_fctrl; rewrite queue_len by exact Hmac; reflexivity).
  set (fc := up_fctrl _ _ _ _).
  change (f_cnt_up (s_ses s3)) with cnt.
  match goal with |- context [frame_puts (len p1) ?l] =>
    replace l with ([fc] ++ le 2 cnt) by (rewrite le2; reflexivity) end.
  bstep ltac:(apply (puts_over p1 F ([fc] ++ le 2 cnt) h2 s3);
    [reflexivity|exact HF|rewrite Hp1, app_length, le_length; cbn [length]; lia]).
  set (p2 := p1 ++ [fc] ++ le 2 cnt).
  assert (Hp2 : length p2 = 8%nat) by (unfold p2; rewrite !app_length, le_length, Hp1; reflexivity).
  set (s4 := with_frame (over p2 F) s3).
  bstep ltac:(apply mac_get_payload_ok; exact Hmac).
  change (queue (s_mac s4)) with (queue (s_mac s)). set (q := queue (s_mac s)) in *.
  set (s5 := on_mac (set_mac_buf_pos 0) s4).
  bstep ltac:(apply (memcpy_over p2 F q (len q) h2 s5); [reflexivity|exact HF|reflexivity|lia]).
  set (p3 := p2 ++ q).
  assert (Hp3 : length p3 = (8 + length q)%nat) by (unfold p3; rewrite app_length; lia).
  rewrite (u8_id (len p2 + len q)) by (unfold len; lia).
  replace (len p2 + len q) with (len p3) by (unfold p3; rewrite len_app; reflexivity).
  set (s6 := with_frame (over p3 F) s5).
  set (body := send_body E port payload confirm s) in *.
  set (pevs := if len payload =? 0 then [] else crypt_evs (app_s_key (s_ses s)) UP addr cnt (length payload)).
  set (s7 := with_frame (over body F) s6).
  erewrite (bind_ok _ _ h2 s6 (len body) s7 pevs).
  2: { destruct (Z.eqb_spec (len payload) 0) as [Hz|Hz]; cbn [negb].
       - assert (payload = []) as Hp0 by (destruct payload; [reflexivity|rewrite len_cons in Hz; pose proof (len_nonneg payload); lia]).
         assert (Hb : body = p3).
         { unfold body, send_body. rewrite Hp0. unfold data_body, crypt, p3, p2, p1. cbn [xorl app].
           rewrite <- !app_assoc, app_nil_r. reflexivity. }
         unfold s7, pevs. rewrite Hb. reflexivity.
       - erewrite bind_ok0.
         2: { assert (Hlf : len (frame s6) = 255) by (unfold s6; rewrite frame_with; unfold len; rewrite over_len; lia).
              apply frame_put_ok; unfold len in *; lia. }
         replace (len p3 + 1) with (len (p3 ++ [port])) by (rewrite len_app; reflexivity).
         assert (Hput : upd (Z.to_nat (len p3)) port (frame s6) = over (p3 ++ [port]) F).
         { unfold s6. rewrite frame_with. unfold over. rewrite upd_prefix by (rewrite skipn_length; lia).
           rewrite skipn_skipn', app_length. reflexivity. }
         rewrite Hput. set (p4 := p3 ++ [port]).
         assert (Hp4 : length p4 = (9 + length q)%nat) by (unfold p4; rewrite app_length; cbn [length]; lia).
         assert (Hpl' : (length payload + length q <= 222)%nat) by (unfold p_max, len in *; lia).
         bstep ltac:(apply (memcpy_over p4 F payload (len payload)); [reflexivity|exact HF|reflexivity|lia]).
         msteps. rewrite with_frame2.
         set (s6' := with_frame (over (p4 ++ payload) F) s6).
         erewrite bind_ok.
         2: { apply (encrypt_payload_ok E (app_s_key (s_ses s6')) 0 p4 payload (skipn (length (p4 ++ payload)) F) h2 s6' HE).
              - unfold s6'. rewrite frame_with. unfold over. rewrite <- app_assoc. reflexivity.
              - unfold s6'. rewrite frame_with. unfold len. rewrite over_len by (rewrite app_length; lia). lia. }
         change (f_cnt_of 0 (s_ses s6')) with cnt. change (dev_addr (s_ses s6')) with addr.
         change (app_s_key (s_ses s6')) with (app_s_key (s_ses s)).
         rewrite u8_id by (unfold len in *; lia).
         set (cr := crypt (e_aes E) (app_s_key (s_ses s)) 0 addr cnt payload).
         assert (Hb : body = p4 ++ cr).
         { unfold body, send_body. fold mh fc q addr cnt. change UP with 0. fold cr.
           unfold data_body, p4, p3, p2, p1. rewrite <- !app_assoc. cbn [app].
           destruct cr eqn:Ec; [|reflexivity]. exfalso.
           assert (length cr = length payload) by exact Hcr. rewrite Ec in *. unfold len in *. cbn [length] in *. lia. }
         assert (Hcl : length cr = length payload) by exact Hcr.
         unfold ret. cbn [addev]. rewrite app_nil_r.
         replace (len p4 + len payload) with (len body) by (rewrite Hb, len_app; unfold len; lia).
         unfold pevs. replace (len payload =? 0) with false by lia.
         unfold s6', s7. rewrite with_frame2. unfold over.
         replace (p4 ++ cr ++ skipn (length (p4 ++ payload)) F) with (body ++ skipn (length body) F)
           by (rewrite Hb, <- app_assoc; rewrite !app_length, Hcl; reflexivity).
         reflexivity. }
  set (h3 := h2 ++ pevs). msteps.
  change (nwk_s_key (s_ses s7)) with (nwk_s_key (s_ses s)). set (nwk := nwk_s_key (s_ses s)).
  assert (Hl7 : len (frame s7) = 255) by (unfold s7; rewrite frame_with; unfold len; rewrite over_len; lia).
  erewrite bind_ok.
  2: { apply (calc_mic_b0_ok E (len body) nwk 0 body h3 s7).
       - rewrite Hl7. unfold len. lia.
       - unfold s7. rewrite frame_with. apply sub_over. }
  change (f_cnt_of 0 (s_ses s7)) with cnt. change (dev_addr (s_ses s7)) with addr.
  set (mic := firstn 4 _).
  assert (Hmic : length mic = 4%nat) by (apply firstn4_length; exact HE).
  set (frm := send_frame_bytes E port payload confirm s).
  assert (Hfrm : frm = body ++ mic) by reflexivity.
  bstep ltac:(apply (memcpy_over body F mic 4); [reflexivity|exact HF|unfold len; rewrite Hmic; reflexivity|lia]).
  rewrite <- Hfrm. msteps.
  unfold radio_tx. msteps.
  rewrite u8_id by (unfold len; lia).
  replace (len body + 4) with (len frm) by (rewrite Hfrm, len_app; unfold len; lia).
  bstep ltac:(apply frame_read_ok; [lia|unfold len; lia|]).
  2: { match goal with |- _ <= len (frame ?x) => change (frame x) with (over frm F) end.
       unfold len. rewrite over_len; rewrite Hfrm, app_length; lia. }
  match goal with |- context [sub (frame ?x) 0 (len frm)] => set (s8 := x) end.
  change (frame s8) with (over frm F). rewrite sub_over. msteps.
  bstep ltac:(apply adr_uplink_ok).
  unfold ret. rewrite !addev_addev. cbn [addev].
  f_equal. f_equal.
  rewrite <- !app_assoc. unfold pevs. reflexivity.
Qed.

(** refusals *)
Lemma send_state_err E port payload n confirm h s : uw_state (s_stk s) <> IDLE ->
  uwan_send_frame E port payload n confirm h s = Ok (ERR_STATE, s, []).
Proof.
  intro H. unfold uwan_send_frame. msteps. destruct (uw_state (s_stk s)); try reflexivity. congruence.
Qed.
Lemma send_channel_err E port payload n confirm h s : env_ok E -> Inv s -> uw_state (s_stk s) = IDLE ->
  next_freq E h s = 0 ->
  uwan_send_frame E port payload n confirm h s = Ok (ERR_CHANNEL, s, rand_evs E h s).
Proof.
  intros HE HI Hst Hf. unfold uwan_send_frame. msteps. rewrite Hst.
  erewrite bind_ok; [|apply (p_next_spec E (s_ch s)); [exact HE|reflexivity|apply HI]].
  fold (next_freq E h s). rewrite Hf. unfold ret. cbn [Z.eqb addev]. rewrite app_nil_r. reflexivity.
Qed.
Lemma send_len_err E port payload confirm h s : env_ok E -> Inv s -> uw_state (s_stk s) = IDLE ->
  next_freq E h s <> 0 ->
  p_max s < len payload \/ (len payload = 0 /\ mac_buf_pos (s_mac s) = 0) ->
  uwan_send_frame E port payload (len payload) confirm h s = Ok (ERR_MSG_LEN, s, rand_evs E h s).
Proof.
  intros HE HI Hst Hf Hl. unfold uwan_send_frame. msteps. rewrite Hst.
  erewrite bind_ok; [|apply (p_next_spec E (s_ch s)); [exact HE|reflexivity|apply HI]].
  fold (next_freq E h s). replace (next_freq E h s =? 0) with false by lia.
  fold (rand_evs E h s).
  bstep ltac:(apply get_max_ok; exact HI).
  destruct (Z.ltb_spec (p_max s) (len payload)); [unfold ret; cbn [addev]; rewrite app_nil_r; reflexivity|].
  unfold mac_get_payload_size. msteps.
  replace ((len payload =? 0) && (mac_buf_pos (s_mac s) =? 0)) with true by lia.
  unfold ret; cbn [addev]; rewrite app_nil_r; reflexivity.
Qed.

(** all cases of a send *)
Inductive send_cases (E : env) (port : Z) (payload : list Z) (confirm : bool) (h : list ev) (s : st)
  : res (err * st * list ev) -> Prop :=
| SC_state : uw_state (s_stk s) <> IDLE -> send_cases E port payload confirm h s (Ok (ERR_STATE, s, []))
| SC_channel : uw_state (s_stk s) = IDLE -> next_freq E h s = 0 ->
    send_cases E port payload confirm h s (Ok (ERR_CHANNEL, s, rand_evs E h s))
| SC_len : uw_state (s_stk s) = IDLE -> next_freq E h s <> 0 ->
    p_max s < len payload \/ (len payload = 0 /\ mac_buf_pos (s_mac s) = 0) ->
    send_cases E port payload confirm h s (Ok (ERR_MSG_LEN, s, rand_evs E h s))
| SC_ok : uw_state (s_stk s) = IDLE -> next_freq E h s <> 0 -> len payload <= p_max s ->
    ~ (len payload = 0 /\ mac_buf_pos (s_mac s) = 0) ->
    send_cases E port payload confirm h s
      (Ok (ERR_NO, send_state (send_frame_bytes E port payload confirm s) s, send_events E h port payload confirm s)).

Lemma send_cases_ok E port payload confirm h s : env_ok E -> Inv s -> is_byte port -> bytes_ok payload ->
  send_cases E port payload confirm h s (uwan_send_frame E port payload (len payload) confirm h s).
Proof.
  intros HE HI Hp Hb.
  assert (Hdec : uw_state (s_stk s) = IDLE \/ uw_state (s_stk s) <> IDLE)
    by (destruct (uw_state (s_stk s)); [right|left|right|right|right]; congruence).
  destruct Hdec as [Hst|Hst].
  2: { rewrite send_state_err by exact Hst. constructor. exact Hst. }
  destruct (Z.eq_dec (next_freq E h s) 0) as [Hf|Hf].
  { rewrite send_channel_err by assumption. constructor; assumption. }
  destruct (Z.ltb_spec (p_max s) (len payload)) as [Hl|Hl].
  { rewrite send_len_err by auto. constructor; auto. }
  destruct (Z.eq_dec (len payload) 0) as [Hz|Hz]; [destruct (Z.eq_dec (mac_buf_pos (s_mac s)) 0) as [Hq|Hq]|].
  - rewrite send_len_err by auto. constructor; auto.
  - rewrite send_ok by (try assumption; lia). constructor; auto; lia.
  - rewrite send_ok by (try assumption; lia). constructor; auto; lia.
Qed.

Lemma uplink_frame_bytes E port payload confirm s : env_ok E -> Inv s -> is_byte port -> bytes_ok payload ->
  len payload <= p_max s ->
  bytes_ok (send_frame_bytes E port payload confirm s) /\
  length (send_frame_bytes E port payload confirm s) = (length (send_body E port payload confirm s) + 4)%nat.
Proof.
  intros HE HI Hp Hb Hl. unfold send_frame_bytes, uplink_frame, sealed.
  fold (send_body E port payload confirm s). unfold data_mic. split.
  2: { rewrite app_length, firstn4_length by exact HE. reflexivity. }
  apply bytes_app. split; [|apply bytes_firstn, (ok_cmac_byte E HE)].
  unfold send_body, data_body.
  assert (Hq := queue_bytes _ (iv_mac _ HI)). assert (Hql := queue_len _ (iv_mac _ HI)).
  assert (Hpos := mk_pos _ (iv_mac _ HI)).
  repeat (apply bytes_app; split).
  - repeat constructor; destruct confirm; cbv; intuition discriminate.
  - apply le_bytes.
  - repeat constructor; unfold up_fctrl; rewrite Hql; destruct (adr_is_enabled (s_adr s)), (up_req s), (ack_required (s_ses s)); cbn [b2z]; lia.
  - apply le_bytes.
  - exact Hq.
  - assert (Hc := crypt_bytes E (app_s_key (s_ses s)) UP (dev_addr (s_ses s)) (f_cnt_up (s_ses s)) payload HE Hb).
    destruct (crypt _ _ _ _ _ _); [constructor|]. constructor; assumption.
Qed.

Lemma send_Inv E port payload confirm s : env_ok E -> Inv s -> is_byte port -> bytes_ok payload ->
  uw_state (s_stk s) = IDLE -> len payload <= p_max s ->
  Inv (send_state (send_frame_bytes E port payload confirm s) s).
Proof.
  intros HE HI Hp Hb Hst Hl.
  destruct (uplink_frame_bytes E port payload confirm s HE HI Hp Hb Hl) as [B1 B2].
  pose proof (send_body_length E port payload confirm s HE HI Hl) as Hbl.
  pose proof (cur_dr_range s HI) as Hdr.
  generalize dependent (send_frame_bytes E port payload confirm s). intros frm B1 B2.
  destruct HI as [Hch Had Hm Hs Hk Hcs]. destruct Had, Hm, Hs, Hk.
  constructor; cbn [s_ch s_adr s_mac s_ses s_stk s_cs send_state]; try assumption.
  - constructor; unfold r_uplink_adr; cbn [ack_cnt ack_limit ack_delay set_ack_cnt]; try assumption.
    destruct (backs_off s); [lia|apply u32_range].
  - constructor; cbn; try assumption. lia.
  - constructor; cbn; try assumption.
    + unfold r_uplink_dr. destruct (backs_off s) eqn:Eb; [|assumption].
      unfold backs_off in Eb. lia.
    + apply u32_range.
  - destruct tk_ddel as [d [D1 D2]].
    constructor; cbn -[over u32 cur_dr Z.sub Z.add Z.mul]; try assumption; try lia.
    + rewrite over_len; lia.
    + apply over_bytes; assumption.
    + apply u32_range.
    + exists d. split; assumption.
    + intros _. rewrite Hst in tk_init. apply tk_init. discriminate.
Qed.

(** ** Join *)
Lemma put_eui_ok n : forall (p F eui : list Z) h s, (n <= length eui)%nat -> uw_dev_eui (s_stk s) = eui ->
  frame s = over p F -> length F = 255%nat -> (length p + n <= 255)%nat ->
  put_eui_rev n (len p) h s = Ok (len p + Z.of_nat n, with_frame (over (p ++ rev (firstn n eui)) F) s, []).
Proof.
  induction n; intros p F eui h s Hn He Hf HF Hl.
  - cbn [put_eui_rev firstn rev]. rewrite app_nil_r, <- Hf, with_frame_self, Z.add_0_r. reflexivity.
  - cbn [put_eui_rev]. msteps. rewrite He.
    erewrite bind_ok0; [|apply arr_get_ok; unfold len; lia].
    assert (Hlf : len (frame s) = 255) by (rewrite Hf; unfold len; rewrite over_len; lia).
    erewrite bind_ok0; [|apply frame_put_ok; unfold len in *; lia].
    set (b := get eui (Z.of_nat n)).
    assert (Hput : upd (Z.to_nat (len p)) b (frame s) = over (p ++ [b]) F).
    { rewrite Hf. unfold over. rewrite upd_prefix by (rewrite skipn_length; lia).
      rewrite skipn_skipn', app_length. reflexivity. }
    rewrite Hput. replace (len p + 1) with (len (p ++ [b])) by (rewrite len_app; reflexivity).
    rewrite (IHn (p ++ [b]) F eui); try assumption; try lia; try reflexivity.
    2: { rewrite app_length. cbn [length]. lia. }
    rewrite with_frame2.
    assert (Hrev : (p ++ [b]) ++ rev (firstn n eui) = p ++ rev (firstn (S n) eui)).
    { assert (Hs : firstn (S n) eui = firstn n eui ++ [b]).
      { unfold b, get. rewrite Nat2Z.id. clear -Hn. revert n Hn.
        induction eui; intros n Hn; cbn [length] in Hn; [lia|].
        destruct n; [reflexivity|]. cbn [firstn nth app]. f_equal. apply IHeui. lia. }
      rewrite Hs, rev_app_distr, <- app_assoc. reflexivity. }
    rewrite Hrev. rewrite len_app. cbn [len length]. 
    replace (len p + len [b] + Z.of_nat n) with (len p + Z.of_nat (S n)) by (unfold len; cbn [length]; lia).
    reflexivity.
Qed.

Definition join_nonce (E : env) (h : list ev) (s : st) : Z :=
  e_rand E (h ++ rand_evs E h s ++
    [RSetFreq (next_freq E h s); RSetup (tx_params (default_dr (s_stk s)) (pkt_params (s_stk s))); RSetPower (p_power s)]) mod 65536.
Definition join_bytes (E : env) (nonce : Z) (s : st) : list Z :=
  join_request (e_cmac E) (uw_app_eui (s_stk s)) (uw_dev_eui (s_stk s)) (uw_app_key (s_stk s)) nonce.
Definition join_stk (frm : list Z) (nonce : Z) (s : st) : stackst :=
  let k := s_stk s in
  set_uw_state TX
    (set_uw_rx2_delay 6000
      (set_uw_rx1_delay 5000
        (set_uw_dev_nonce nonce
          (set_uw_is_join_state true
            (set_uw_frame (over frm (uw_frame k))
              (set_pkt_params (tx_params (default_dr k) (pkt_params k)) k)))))).
Definition join_state (frm : list Z) (nonce : Z) (s : st) : st :=
  Mk_st (s_ch s) (s_adr s) (s_mac s) (set_is_joined false (s_ses s)) (join_stk frm nonce s) (s_cs s).
Definition join_body (nonce : Z) (s : st) : list Z :=
  [MHDR_JOIN_REQ] ++ uw_app_eui (s_stk s) ++ rev (uw_dev_eui (s_stk s)) ++ le 2 nonce.
Definition join_events (E : env) (h : list ev) (s : st) : list ev :=
  let pre := rand_evs E h s ++
    [RSetFreq (next_freq E h s); RSetup (tx_params (default_dr (s_stk s)) (pkt_params (s_stk s))); RSetPower (p_power s)] in
  pre ++ [LRand (e_rand E (h ++ pre))] ++
  mic_evs (uw_app_key (s_stk s)) [] (join_body (join_nonce E h s) s) ++
  [RTx (join_bytes E (join_nonce E h s) s)].

Lemma utils_get_random_ok E max h s : env_ok E -> 0 < max ->
  utils_get_random E max h s = Ok (e_rand E h mod max, s, [LRand (e_rand E h)]).
Proof.
  intros HE Hm. unfold utils_get_random. rewrite bind_query.
  replace (max =? 0) with false by lia. rewrite u32_id by (pose proof (ok_rand E HE h); lia). reflexivity.
Qed.

Lemma join_ok E h s : env_ok E -> Inv s -> uw_state (s_stk s) = IDLE -> next_freq E h s <> 0 ->
  uwan_join E h s =
    Ok (ERR_NO, join_state (join_bytes E (join_nonce E h s) s) (join_nonce E h s) s, join_events E h s).
Proof.
  intros HE HI Hst Hf.
  pose proof (iv_stk _ HI) as Hk. pose proof (tk_ddr _ Hk) as Hdr. pose proof (tk_frame _ Hk) as HF.
  pose proof (tk_deui _ Hk) as Hde. pose proof (tk_aeui _ Hk) as Hae.
  destruct (tk_init _ Hk) as [Hreg _]; [rewrite Hst; discriminate|].
  destruct (uw_region (s_stk s)) as [rg|] eqn:Erg; [clear Hreg|congruence].
  unfold uwan_join. msteps. rewrite Hst.
  erewrite bind_ok; [|apply (p_next_spec E (s_ch s)); [exact HE|reflexivity|apply HI]].
  fold (next_freq E h s). fold (rand_evs E h s).
  replace (next_freq E h s =? 0) with false by lia. msteps.
  bstep ltac:(apply dr_table_ok; exact Hdr). msteps.
  bstep ltac:(apply (deref_hal_ok rg); exact Erg). msteps.
  match goal with |- context [RSetup (pkt_params (s_stk ?x))] =>
    set (s1 := x); change (pkt_params (s_stk s1)) with (tx_params (default_dr (s_stk s)) (pkt_params (s_stk s))) end.
  erewrite bind_ok; [|apply apply_tx_power_ok; exact (tk_txp _ Hk)].
  change (p_power s1) with (p_power s).
  rewrite !addev_addev.
  set (pre := rand_evs E h s ++ [RSetFreq (next_freq E h s); RSetup (tx_params (default_dr (s_stk s)) (pkt_params (s_stk s))); RSetPower (p_power s)]).
  match goal with |- addev ?l (_ ?hh _) = _ => replace l with pre by (unfold pre; rewrite <- !app_assoc; reflexivity);
     replace hh with (h ++ pre) by (unfold pre; rewrite <- !app_assoc; reflexivity) end.
  msteps. set (F := uw_frame (s_stk s)) in *.
  match goal with |- context [bind (frame_put 0 _) _ _ ?x] => set (s2 := x) end.
  erewrite bind_ok0.
  2: { apply frame_put_ok; [|lia]. change (frame s2) with F. unfold len. lia. }
  change (frame s2) with F. change (u8 (Z.lor (Z.shiftl MTYPE_JOIN_REQUEST 5) 0)) with MHDR_JOIN_REQ.
  set (p1 := [MHDR_JOIN_REQ]).
  replace (upd (Z.to_nat 0) MHDR_JOIN_REQ F) with (over p1 F)
    by (destruct F; [cbn in HF; discriminate|reflexivity]).
  change (0 + 1) with (len p1). msteps.
  change (uw_app_eui (s_stk (with_frame (over p1 F) s2))) with (uw_app_eui (s_stk s)).
  set (ae := uw_app_eui (s_stk s)) in *. set (de := uw_dev_eui (s_stk s)) in *.
  bstep ltac:(apply (memcpy_over p1 F ae 8); [reflexivity|exact HF|unfold len; rewrite Hae; reflexivity|cbn [length p1]; lia]).
  rewrite with_frame2. set (p2 := p1 ++ ae).
  assert (Hp2 : length p2 = 9%nat) by (unfold p2; rewrite app_length, Hae; reflexivity).
  replace (u8 (len p1 + 8)) with (len p2) by (unfold len; rewrite Hp2; reflexivity).
  bstep ltac:(apply (put_eui_ok 8 p2 F de); [lia|reflexivity|reflexivity|exact HF|lia]).
  rewrite with_frame2. rewrite <- Hde at 1. rewrite firstn_all. set (p3 := p2 ++ rev de).
  assert (Hp3 : length p3 = 17%nat) by (unfold p3; rewrite app_length, rev_length; lia).
  replace (len p2 + Z.of_nat 8) with (len p3) by (unfold len; lia).
  erewrite bind_ok; [|apply utils_get_random_ok; [exact HE|lia]].
  change (e_rand E (h ++ pre) mod 65536) with (join_nonce E h s). set (nonce := join_nonce E h s).
  rewrite addev_addev. msteps.
  match goal with |- context [frame_puts (len p3) ?l] =>
    replace l with (le 2 nonce) by (rewrite le2; reflexivity) end.
  bstep ltac:(apply (puts_over p3 F (le 2 nonce)); [reflexivity|exact HF|rewrite le_length; lia]).
  set (body := p3 ++ le 2 nonce).
  assert (Hb : body = join_body nonce s).
  { unfold body, join_body, p3, p2, p1. rewrite <- !app_assoc. reflexivity. }
  assert (Hbl : length body = 19%nat) by (unfold body; rewrite app_length, le_length; lia).
  msteps.
  match goal with |- context [uw_app_key (s_stk ?x)] => change (uw_app_key (s_stk x)) with (uw_app_key (s_stk s)) end.
  erewrite bind_ok.
  2: { apply (calc_mic_plain_ok E (len body) _ 0 body).
       - rewrite frame_with. unfold len. rewrite over_len; lia.
       - rewrite frame_with. apply sub_over. }
  set (mic := firstn 4 _).
  assert (Hmic : length mic = 4%nat) by (apply firstn4_length; exact HE).
  set (frm := join_bytes E nonce s).
  assert (Hfrm : frm = body ++ mic).
  { unfold frm, join_bytes, join_request, mic. fold (join_body nonce s). rewrite <- Hb. reflexivity. }
  bstep ltac:(apply (memcpy_over body F mic 4); [reflexivity|exact HF|unfold len; rewrite Hmic; reflexivity|lia]).
  rewrite <- Hfrm. msteps. unfold radio_tx. msteps.
  rewrite u8_id by (unfold len; lia).
  replace (len body + 4) with (len frm) by (rewrite Hfrm, len_app; unfold len; lia).
  bstep ltac:(apply frame_read_ok; [lia|unfold len; lia|]).
  2: { match goal with |- _ <= len (frame ?x) => change (frame x) with (over frm F) end.
       unfold len. rewrite over_len; rewrite Hfrm, app_length; lia. }
  match goal with |- context [sub (frame ?x) 0 (len frm)] => set (s8 := x) end.
  change (frame s8) with (over frm F). rewrite sub_over. msteps.
  unfold ret. rewrite !addev_addev. cbn [addev].
  f_equal. f_equal. unfold join_events. fold nonce. rewrite <- Hb. fold frm. fold pre.
  rewrite <- !app_assoc. reflexivity.
Qed.

Inductive join_cases (E : env) (h : list ev) (s : st) : res (err * st * list ev) -> Prop :=
| JC_state : uw_state (s_stk s) <> IDLE -> join_cases E h s (Ok (ERR_STATE, s, []))
| JC_channel : uw_state (s_stk s) = IDLE -> next_freq E h s = 0 ->
    join_cases E h s (Ok (ERR_CHANNEL, s, rand_evs E h s))
| JC_ok : uw_state (s_stk s) = IDLE -> next_freq E h s <> 0 ->
    join_cases E h s
      (Ok (ERR_NO, join_state (join_bytes E (join_nonce E h s) s) (join_nonce E h s) s, join_events E h s)).

Lemma join_cases_ok E h s : env_ok E -> Inv s -> join_cases E h s (uwan_join E h s).
Proof.
  intros HE HI.
  assert (Hdec : uw_state (s_stk s) = IDLE \/ uw_state (s_stk s) <> IDLE)
    by (destruct (uw_state (s_stk s)); [right|left|right|right|right]; congruence).
  destruct Hdec as [Hst|Hst].
  2: { replace (uwan_join E h s) with (Ok (ERR_STATE, s, @nil ev)); [constructor; exact Hst|].
       unfold uwan_join. msteps. destruct (uw_state (s_stk s)); try reflexivity. congruence. }
  destruct (Z.eq_dec (next_freq E h s) 0) as [Hf|Hf].
  { replace (uwan_join E h s) with (Ok (ERR_CHANNEL, s, rand_evs E h s)); [constructor; assumption|].
    unfold uwan_join. msteps. rewrite Hst.
    erewrite bind_ok; [|apply (p_next_spec E (s_ch s)); [exact HE|reflexivity|apply HI]].
    fold (next_freq E h s). rewrite Hf. unfold ret. cbn [Z.eqb addev]. rewrite app_nil_r. reflexivity. }
  rewrite join_ok by assumption. constructor; assumption.
Qed.

Lemma join_bytes_ok E nonce s : env_ok E -> Inv s ->
  bytes_ok (join_bytes E nonce s) /\ length (join_bytes E nonce s) = 23%nat.
Proof.
  intros HE HI. pose proof (iv_stk _ HI) as Hk. destruct Hk.
  unfold join_bytes, join_request. split.
  - repeat (apply bytes_app; split); try assumption; try (apply le_bytes).
    + repeat constructor; cbv; intuition discriminate.
    + apply Forall_rev. assumption.
    + apply bytes_firstn, (ok_cmac_byte E HE).
  - rewrite !app_length, firstn4_length, rev_length, le_length by exact HE.
    rewrite tk_aeui, tk_deui. reflexivity.
Qed.
Lemma join_Inv E nonce s : env_ok E -> Inv s -> uw_state (s_stk s) = IDLE -> 0 <= nonce < 65536 ->
  Inv (join_state (join_bytes E nonce s) nonce s).
Proof.
  intros HE HI Hst Hn. destruct (join_bytes_ok E nonce s HE HI) as [B1 B2].
  generalize dependent (join_bytes E nonce s). intros frm B1 B2.
  destruct HI as [Hch Had Hm Hs Hk Hcs]. destruct Hs, Hk.
  constructor; cbn [s_ch s_adr s_mac s_ses s_stk s_cs join_state]; try assumption.
  - constructor; cbn; try assumption.
  - destruct tk_ddel as [d [D1 D2]].
    constructor; cbn -[over u32 cur_dr Z.sub Z.add Z.mul]; try assumption; try lia.
    + rewrite over_len; lia.
    + apply over_bytes; assumption.
    + exists d. split; assumption.
    + intros _. rewrite Hst in tk_init. apply tk_init. discriminate.
Qed.
Lemma join_nonce_range E h s : 0 <= join_nonce E h s < 65536.
Proof. unfold join_nonce. apply Z.mod_pos_bound. lia. Qed.
