(** Stack.v -- src/stack.c: frame construction, downlink handling, the radio
    event handler and the public API. *)
From Verif Require Export Mac.

(** *** Helpers for the C idioms of src/stack.c *)

(** Dereference of uw_radio / uw_stack_hal / uw_region. uwan_init sets the three
    pointers together (src/stack.c:517-519), so whether they are NULL is
    represented by [uw_region] alone; the check is placed at the first
    dereference of each function that uses them. *)
Definition deref_hal : C region :=
  r <- get_stk uw_region ;;
  match r with None => fail UB_null | Some x => ret x end.

(** uw_frame[i] *)
Definition frame_get (i : Z) : C Z :=
  f <- get_stk uw_frame ;; arr_get f i.

(** uw_frame[off++] = b, with a uint8_t offset; result: the new offset. *)
Definition frame_put (off b : Z) : C Z :=
  f <- get_stk uw_frame ;;
  f' <- arr_set f off b ;;
  mod_stk (set_uw_frame f') ;;;
  ret (u8 (off + 1)).

(** a run of such assignments *)
Fixpoint frame_puts (off : Z) (bs : list Z) : C Z :=
  match bs with
  | [] => ret off
  | b :: bs' => off' <- frame_put off b ;; frame_puts off' bs'
  end.

(** memcpy(uw_frame + off, src, n) *)
Definition frame_memcpy (off : Z) (src : list Z) (n : Z) : C unit :=
  f <- get_stk uw_frame ;;
  f' <- arr_memcpy f off src n ;;
  mod_stk (set_uw_frame f').

(** the [n] bytes at uw_frame + off, read by an external function or memcmp *)
Definition frame_read (off n : Z) : C (list Z) :=
  f <- get_stk uw_frame ;;
  if (0 <=? off) && (0 <=? n) && (off + n <=? len f) then ret (sub f off n)
  else fail UB_oob.

(** memcmp(a, b, n) == 0 on byte lists of equal length *)
Fixpoint memeq (a b : list Z) : bool :=
  match a, b with
  | [], [] => true
  | x :: a', y :: b' => (x =? y) && memeq a' b'
  | _, _ => false
  end.

(** &uw_dr_table[dr], src/stack.c:71-84 *)
Definition uw_dr_table : list (Z * Z) :=
  [(SF_12, BW_125); (SF_11, BW_125); (SF_10, BW_125);
   (SF_9, BW_125); (SF_8, BW_125); (SF_7, BW_125)].

(** src/stack.c:90-92 *)
Definition uw_max_app_pld_size : list Z := [51; 51; 51; 115; 222; 222].

(** pkt_params.sf = dr->sf; pkt_params.bw = dr->bw (five places) *)
Definition set_sf_bw (d : Z * Z) (p : params) : params :=
  Mk_params (fst d) (snd d) (p_cr p) (p_preamble_len p) (p_crc_on p)
            (p_inverted_iq p) (p_implicit_header p).
(** pkt_params.inverted_iq = b *)
Definition set_iq (b : bool) (p : params) : params :=
  Mk_params (p_sf p) (p_bw p) (p_cr p) (p_preamble_len p) (p_crc_on p) b
            (p_implicit_header p).
Definition mod_params (f : params -> params) : C unit :=
  mod_stk (fun k => set_pkt_params (f (pkt_params k)) k).

(** src/stack.c:125-129; [power] is an int, set_power takes int8_t. *)
Definition apply_tx_power : C unit :=
  eirp <- get_stk default_max_eirp ;;
  i <- get_stk uw_tx_power ;;
  t <- arr_get uw_tx_power_table i ;;
  emit (RSetPower (s8 (eirp - t))).

(** src/stack.c:131-137 *)
Definition get_current_dr : C Z :=
  en <- uwan_adr_is_enabled ;;
  if en then get_ses ses_dr else get_stk default_dr.

(** src/stack.c:174-176, for (i = 0; i < chunk_size; i++, src_pos++);
    [base] is the offset of buf in uw_frame. Result: the new src_pos. *)
Fixpoint xor_loop (n : nat) (i : Z) (base src_pos : Z) (s_block : list Z) : C Z :=
  match n with
  | O => ret src_pos
  | S n' =>
      b <- frame_get (base + src_pos) ;;
      s <- arr_get s_block i ;;
      frame_put (base + src_pos) (Z.lxor b s) ;;;
      xor_loop n' (i + 1) base (u8 (src_pos + 1)) s_block
  end.

(** src/stack.c:168-178. [a_block] holds the 15 bytes written before the loop;
    line 169 stores the block number behind them. Fuel: [size] is a uint8_t and
    decreases. *)
Fixpoint encrypt_loop (E : env) (fuel : nat) (key a_block : list Z)
    (a_block_i base src_pos size : Z) : C unit :=
  if 0 <? size then
    match fuel with
    | O => fail UB_diverge
    | S fuel' =>
        let blk := a_block ++ [a_block_i] in
        emit (CAesEnc blk) ;;;
        let s_block := e_aes E key blk in
        let chunk_size := if 16 <=? size then 16 else size in
        src_pos' <- xor_loop (Z.to_nat chunk_size) 0 base src_pos s_block ;;
        encrypt_loop E fuel' key a_block (u8 (a_block_i + 1)) base src_pos'
          (u8 (size - chunk_size))
    end
  else ret tt.

(** src/stack.c:139-181; buf = uw_frame + base *)
Definition encrypt_payload (E : env) (base size : Z) (key : list Z) (dir : Z) : C unit :=
  fd <- get_ses f_cnt_down ;;
  fu <- get_ses f_cnt_up ;;
  addr <- get_ses dev_addr ;;
  let f_cnt := if negb (dir =? 0) then fd else fu in
  let a_block := [1; 0; 0; 0; 0; dir;
    Z.land addr 255; Z.land (Z.shiftr addr 8) 255;
    Z.land (Z.shiftr addr 16) 255; Z.land (Z.shiftr addr 24) 255;
    Z.land f_cnt 255; Z.land (Z.shiftr f_cnt 8) 255;
    Z.land (Z.shiftr f_cnt 16) 255; Z.land (Z.shiftr f_cnt 24) 255; 0] in
  emit (CAesNew key) ;;;
  encrypt_loop E 256 key a_block 1 base 0 size ;;;
  emit CAesDel.

(** src/stack.c:183-220; msg = uw_frame. Result: the MIC_LEN bytes copied to
    the caller's buffer. *)
Definition calc_mic (E : env) (msg_len : Z) (key : list Z) (dir : Z) (b0 : bool)
  : C (list Z) :=
  emit (CCmacNew key) ;;;
  prefix <- (if b0 then
      fd <- get_ses f_cnt_down ;;
      fu <- get_ses f_cnt_up ;;
      addr <- get_ses dev_addr ;;
      let f_cnt := if negb (dir =? 0) then fd else fu in
      let block_b0 := [73; 0; 0; 0; 0; dir;
        Z.land addr 255; Z.land (Z.shiftr addr 8) 255;
        Z.land (Z.shiftr addr 16) 255; Z.land (Z.shiftr addr 24) 255;
        Z.land f_cnt 255; Z.land (Z.shiftr f_cnt 8) 255;
        Z.land (Z.shiftr f_cnt 16) 255; Z.land (Z.shiftr f_cnt 24) 255;
        0; msg_len] in
      emit (CCmacUpd block_b0) ;;; ret block_b0
    else ret []) ;;
  msg <- frame_read 0 msg_len ;;
  emit (CCmacUpd msg) ;;;
  emit CCmacFin ;;;
  emit CCmacDel ;;;
  ret (firstn 4 (e_cmac E key (prefix ++ msg))).

(** src/stack.c:222-241; the local 16-byte block is written as a list. *)
Definition derive_session_key (E : env) (key_type app_nonce net_id : Z) : C (list Z) :=
  dev_nonce <- get_stk uw_dev_nonce ;;
  let block := [key_type;
    Z.land app_nonce 255; Z.land (Z.shiftr app_nonce 8) 255; Z.land (Z.shiftr app_nonce 16) 255;
    Z.land net_id 255; Z.land (Z.shiftr net_id 8) 255; Z.land (Z.shiftr net_id 16) 255;
    Z.land dev_nonce 255; Z.land (Z.shiftr dev_nonce 8) 255;
    0; 0; 0; 0; 0; 0; 0] in
  app_key <- get_stk uw_app_key ;;
  emit (CAesNew app_key) ;;;
  emit (CAesEnc block) ;;;
  emit CAesDel ;;;
  ret (e_aes E app_key block).

(** src/stack.c:544-557 *)
Definition uwan_set_session (addr cnt_up cnt_down : Z) (nwk app : list Z) : C unit :=
  mod_ses (set_dev_addr addr) ;;;
  mod_ses (set_f_cnt_up cnt_up) ;;;
  mod_ses (set_f_cnt_down cnt_down) ;;;
  mod_ses (set_ack_required false) ;;;
  d <- get_stk default_dr ;;
  mod_ses (set_ses_dr d) ;;;
  k1 <- get_ses nwk_s_key ;;
  k1' <- arr_memcpy k1 0 nwk 16 ;;
  mod_ses (set_nwk_s_key k1') ;;;
  k2 <- get_ses app_s_key ;;
  k2' <- arr_memcpy k2 0 app 16 ;;
  mod_ses (set_app_s_key k2') ;;;
  mod_ses (set_is_joined true).

(** struct uwan_dl_packet while the stack works on it: [pk_off] is the offset
    of data in uw_frame, None for NULL. include/uwan/stack.h:135-141 *)
Record pkt := Mk_pkt {
  pk_off : option Z; pk_size : Z; pk_port : Z; pk_rssi : Z; pk_snr : Z
}.

(** in-place crypto_aes_encrypt(ctx, uw_frame + off, uw_frame + off) *)
Definition frame_aes (E : env) (key : list Z) (off : Z) : C unit :=
  src <- frame_read off 16 ;;
  emit (CAesEnc src) ;;;
  frame_memcpy off (e_aes E key src) 16.

(** src/stack.c:243-318; buf = uw_frame (pkt->data is set at line 423). The C
    statement order is kept; line 273 compares with the *decrypted* frame. *)
Definition handle_join_msg (E : env) (p : pkt) : C err :=
  let size := pk_size p in
  if negb ((size =? 17) || (size =? 33)) then ret ERR_MSG_LEN else
  let cflist := size =? 33 in
  mhdr <- frame_get 0 ;;
  if negb (mhdr =? Z.lor (Z.shiftl MTYPE_JOIN_ACCEPT 5) 0) then ret ERR_MSG_MHDR else
  key <- get_stk uw_app_key ;;
  emit (CAesNew key) ;;;
  frame_aes E key 1 ;;;
  (if cflist then frame_aes E key 17 else ret tt) ;;;
  emit CAesDel ;;;
  mic <- calc_mic E (u8 (size - 4)) key 0 false ;;
  got <- frame_read (size - 4) 4 ;;
  if negb (memeq got mic) then ret ERR_MSG_MIC else
  b1 <- frame_get 1 ;; b2 <- frame_get 2 ;; b3 <- frame_get 3 ;;
  let app_nonce := Z.lor (Z.lor b1 (Z.shiftl b2 8)) (Z.shiftl b3 16) in
  b4 <- frame_get 4 ;; b5 <- frame_get 5 ;; b6 <- frame_get 6 ;;
  let net_id := Z.lor (Z.lor b4 (Z.shiftl b5 8)) (Z.shiftl b6 16) in
  b7 <- frame_get 7 ;; b8 <- frame_get 8 ;; b9 <- frame_get 9 ;; b10 <- frame_get 10 ;;
  b10s <- shl24 E b10 ;;
  let addr := u32 (Z.lor (Z.lor (Z.lor b7 (Z.shiftl b8 8)) (Z.shiftl b9 16)) b10s) in
  dl_settings <- frame_get 11 ;;
  let rx1_dr_offset := Z.land (Z.shiftr dl_settings 4) 7 in
  let rx2_dr := Z.land dl_settings 15 in
  (if is_valid_dr rx1_dr_offset then mod_stk (set_uw_rx1_offset rx1_dr_offset) else ret tt) ;;;
  (if is_valid_dr rx2_dr then mod_stk (set_uw_rx2_dr rx2_dr) else ret tt) ;;;
  b12 <- frame_get 12 ;;
  let rx1_delay := Z.land b12 15 in
  let rx1_delay := if rx1_delay =? 0 then 1 else rx1_delay in
  mod_stk (set_default_rx1_delay (u32 (rx1_delay * 1000))) ;;;
  (if cflist then
     r <- deref_hal ;;
     fl <- frame_read 13 16 ;;
     region_handle_cflist r fl
   else ret tt) ;;;
  nwk <- derive_session_key E 1 app_nonce net_id ;;
  app <- derive_session_key E 2 app_nonce net_id ;;
  uwan_set_session addr 0 0 nwk app ;;;
  ret ERR_NO.

(** src/stack.c:363-381 *)
Definition update_f_cnt_down (f_cnt : Z) : C bool :=
  cur <- get_ses f_cnt_down ;;
  if cur =? 0 then
    mod_ses (set_f_cnt_down f_cnt) ;;; ret true
  else
    let f_cnt_prev := u16 cur in
    let f_cnt_diff := u16 (f_cnt - f_cnt_prev) in
    if f_cnt_diff =? 0 then ret false else
    if f_cnt_diff <=? MAX_FCNT_GAP then
      mod_ses (set_f_cnt_down (u32 (cur + f_cnt_diff))) ;;; ret true
    else
      let f_cnt_hi := Z.land cur 4294901760 in
      mod_ses (set_f_cnt_down (u32 (f_cnt_hi + 65536 + f_cnt))) ;;; ret true.

(** src/stack.c:320-415; result: error code and the updated packet. *)
Definition handle_data_msg (E : env) (p : pkt) : C (err * pkt) :=
  let size := pk_size p in
  let msg_min_size := 12 in
  if size <? msg_min_size then ret (ERR_MSG_LEN, p) else
  mhdr <- frame_get 0 ;;
  if negb (Z.land (Z.shiftr mhdr 0) 3 =? 0) then ret (ERR_MSG_MHDR, p) else
  let mtype := Z.land (Z.shiftr mhdr 5) 7 in
  if negb (mtype =? MTYPE_UNCONF_DATA_DOWN) && negb (mtype =? MTYPE_CONF_DATA_DOWN)
  then ret (ERR_MSG_MHDR, p) else
  (if mtype =? MTYPE_CONF_DATA_DOWN then mod_ses (set_ack_required true) else ret tt) ;;;
  b1 <- frame_get 1 ;; b2 <- frame_get 2 ;; b3 <- frame_get 3 ;; b4 <- frame_get 4 ;;
  b4s <- shl24 E b4 ;;
  let addr := u32 (Z.lor (Z.lor (Z.lor b1 (Z.shiftl b2 8)) (Z.shiftl b3 16)) b4s) in
  own <- get_ses dev_addr ;;
  if negb (own =? addr) then ret (ERR_DEV_ADDR, p) else
  f_ctrl <- frame_get 5 ;;
  let f_opts_len := Z.land f_ctrl 15 in
  if size <? msg_min_size + f_opts_len then ret (ERR_MSG_LEN, p) else
  b6 <- frame_get 6 ;; b7 <- frame_get 7 ;;
  let f_cnt := u16 (Z.lor b6 (Z.shiftl b7 8)) in
  fresh <- update_f_cnt_down f_cnt ;;
  if negb fresh then ret (ERR_FCNT, p) else
  mod_stk (set_current_snr (pk_snr p)) ;;;
  (if 0 <? f_opts_len then
     cmds <- frame_read 8 f_opts_len ;;
     mac_handle_commands E cmds
   else ret tt) ;;;
  let offset := u8 (8 + f_opts_len) in
  let rest := u8 (size - (msg_min_size + f_opts_len)) in
  '(p1, pld, pld_size) <-
    (if 0 <? rest then
       port <- frame_get offset ;;
       ret (Mk_pkt (pk_off p) size port (pk_rssi p) (pk_snr p),
            Some (u8 (offset + 1)), rest - 1)
     else ret (p, None, rest)) ;;
  nwk <- get_ses nwk_s_key ;;
  mic <- calc_mic E (u8 (size - 4)) nwk 1 true ;;
  got <- frame_read (size - 4) 4 ;;
  if negb (memeq got mic) then ret (ERR_MSG_MIC, p1) else
  (if 0 <? pld_size then
     app <- get_ses app_s_key ;;
     let key := if pk_port p1 =? 0 then nwk else app in
     match pld with
     | None => fail UB_null
     | Some o => encrypt_payload E o pld_size key 1
     end
   else ret tt) ;;;
  adr_handle_downlink ;;;
  ret (ERR_NO, Mk_pkt pld pld_size (pk_port p1) (pk_rssi p1) (pk_snr p1)).

(** The structure as the callback can observe it: the bytes behind data. *)
Definition view_of (p : pkt) : C dlview :=
  match pk_off p with
  | None => ret (Mk_dlview None (pk_size p) (pk_port p) (pk_rssi p) (pk_snr p))
  | Some o =>
      d <- frame_read o (pk_size p) ;;
      ret (Mk_dlview (Some d) (pk_size p) (pk_port p) (pk_rssi p) (pk_snr p))
  end.

(** src/stack.c:417-440. read_packet() stores the received bytes at the start
    of uw_frame and their number in pkt.size (contract of the drivers:
    src/device/sx127x.c, src/device/sx126x.c). *)
Definition handle_downlink (E : env) (e : err) : C unit :=
  deref_hal ;;;
  let p0 := Mk_pkt None 0 0 0 0 in
  p1 <- (if is_ERR_NO e then
           rx <- query (e_pkt E) RRead ;;
           frame_memcpy 0 (rx_data rx) (len (rx_data rx)) ;;;
           ret (Mk_pkt (Some 0) (len (rx_data rx)) 0 (rx_rssi rx) (rx_snr rx))
         else ret p0) ;;
  emit RSleep ;;;
  '(e', mtype, p2) <-
    (if is_ERR_NO e then
       b0 <- frame_get 0 ;;
       let mtype := Z.land (Z.shiftr b0 5) 7 in
       join <- get_stk uw_is_join_state ;;
       (if (join : bool) then
          r <- handle_join_msg E p1 ;; ret (r, mtype, p1)
        else
          '(r, p') <- handle_data_msg E p1 ;; ret (r, mtype, p'))
     else ret (e, MTYPE_JOIN_REQUEST, p1)) ;;
  mod_stk (set_uw_is_join_state false) ;;;
  v <- view_of p2 ;;
  emit (CbDown e' mtype v).

(** src/stack.c:448-471 *)
Definition evt_tx_done (E : env) : C unit :=
  mod_stk (set_uw_state RX1) ;;;
  deref_hal ;;;
  d1 <- get_stk uw_rx1_delay ;;
  emit (TStart TIMER_RX1 d1) ;;;
  d2 <- get_stk uw_rx2_delay ;;
  emit (TStart TIMER_RX2 d2) ;;;
  off <- get_stk uw_rx1_offset ;;
  (if negb (off =? 0) then
     dr_id <- get_current_dr ;;
     let dr_id := if dr_id <? off then DR_0 else dr_id - off in
     d <- arr_get uw_dr_table dr_id ;;
     mod_params (set_sf_bw d)
   else ret tt) ;;;
  mod_params (set_iq true) ;;;
  p <- get_stk pkt_params ;;
  emit (RSetup p) ;;;
  mac_on_tx_complete E.

(** src/stack.c:474-483 *)
Definition evt_rx1_timeout : C unit :=
  mod_stk (set_uw_state RX2) ;;;
  deref_hal ;;;
  i <- get_stk uw_rx2_dr ;;
  d <- arr_get uw_dr_table i ;;
  mod_params (set_sf_bw d) ;;;
  mod_params (set_iq true) ;;;
  f <- get_stk uw_rx2_frequency ;;
  emit (RSetFreq f) ;;;
  p <- get_stk pkt_params ;;
  emit (RSetup p).

Definition irq_has (mask flag : Z) : bool := negb (Z.land mask flag =? 0).

(** src/stack.c:442-511 *)
Definition evt_handler (E : env) (evt_mask : Z) : C unit :=
  s <- get_stk uw_state ;;
  match s with
  | NOT_INIT | IDLE => ret tt
  | TX => if irq_has evt_mask IRQF_TX_DONE then evt_tx_done E else ret tt
  | RX1 =>
      if irq_has evt_mask IRQF_RX_TIMEOUT then evt_rx1_timeout
      else if irq_has evt_mask IRQF_RX_DONE then
        deref_hal ;;;
        emit (TStop TIMER_RX2) ;;;
        mod_stk (set_uw_state IDLE) ;;;
        (if irq_has evt_mask IRQF_CRC_ERROR then handle_downlink E ERR_RX_CRC
         else handle_downlink E ERR_NO)
      else ret tt
  | RX2 =>
      if irq_has evt_mask IRQF_RX_TIMEOUT then
        mod_stk (set_uw_state IDLE) ;;;
        handle_downlink E ERR_RX_TIMEOUT
      else if irq_has evt_mask IRQF_RX_DONE then
        mod_stk (set_uw_state IDLE) ;;;
        (if irq_has evt_mask IRQF_CRC_ERROR then handle_downlink E ERR_RX_CRC
         else handle_downlink E ERR_NO)
      else ret tt
  end.

(** src/stack.c:521 memset(&uw_session, 0, sizeof(uw_session)) *)
Definition session0 : session :=
  Mk_session false false 0 0 0 0 (zeros 16) (zeros 16).

(** src/stack.c:513-534. The region is required to be one of the two shipped
    structs; radio and stack pointers non-NULL. *)
Definition uwan_init (E : env) (r : region) : C unit :=
  mod_stk (set_uw_state IDLE) ;;;
  mod_stk (set_uw_region (Some r)) ;;;
  mod_ses (fun _ => session0) ;;;
  emit RSetHandler ;;;
  mac_init ;;;
  channels_init ;;;
  region_init r ;;;
  seed <- query (e_radio_rand E) RRand ;;
  utils_random_init seed ;;;
  mod_params (fun p => Mk_params (p_sf p) (p_bw p) CR_4_5 8 true (p_inverted_iq p) false).

(** src/stack.c:536-542 *)
Definition uwan_set_otaa_keys (dev_eui app_eui app_key : list Z) : C unit :=
  a <- get_stk uw_dev_eui ;;
  a' <- arr_memcpy a 0 dev_eui 8 ;;
  mod_stk (set_uw_dev_eui a') ;;;
  b <- get_stk uw_app_eui ;;
  b' <- arr_memcpy b 0 app_eui 8 ;;
  mod_stk (set_uw_app_eui b') ;;;
  k <- get_stk uw_app_key ;;
  k' <- arr_memcpy k 0 app_key 16 ;;
  mod_stk (set_uw_app_key k').

(** src/stack.c:559-562 *)
Definition uwan_is_joined : C bool := get_ses is_joined.

(** src/stack.c:604-605, for (i = UWAN_DEV_EUI_SIZE; i > 0; i--) *)
Fixpoint put_eui_rev (n : nat) (off : Z) : C Z :=
  match n with
  | O => ret off
  | S n' =>
      eui <- get_stk uw_dev_eui ;;
      b <- arr_get eui (Z.of_nat n') ;;
      off' <- frame_put off b ;;
      put_eui_rev n' off'
  end.

(** radio->tx(uw_frame, offset): the driver reads the bytes. *)
Definition radio_tx (offset : Z) : C unit :=
  fr <- frame_read 0 offset ;;
  emit (RTx fr).

(** src/stack.c:578-621 *)
Definition uwan_join (E : env) : C err :=
  s <- get_stk uw_state ;;
  match s with
  | IDLE =>
      frequency <- channels_get_next E ;;
      if frequency =? 0 then ret ERR_CHANNEL else
      i <- get_stk default_dr ;;
      d <- arr_get uw_dr_table i ;;
      mod_params (set_sf_bw d) ;;;
      mod_params (set_iq false) ;;;
      deref_hal ;;;
      emit (RSetFreq frequency) ;;;
      p <- get_stk pkt_params ;;
      emit (RSetup p) ;;;
      apply_tx_power ;;;
      mod_ses (set_is_joined false) ;;;
      mod_stk (set_uw_is_join_state true) ;;;
      offset <- frame_put 0 (u8 (Z.lor (Z.shiftl MTYPE_JOIN_REQUEST 5) 0)) ;;
      app_eui <- get_stk uw_app_eui ;;
      frame_memcpy offset app_eui 8 ;;;
      let offset := u8 (offset + 8) in
      offset <- put_eui_rev 8 offset ;;
      nonce <- utils_get_random E 65536 ;;
      mod_stk (set_uw_dev_nonce nonce) ;;;
      offset <- frame_puts offset [Z.land nonce 255; Z.land (Z.shiftr nonce 8) 255] ;;
      app_key <- get_stk uw_app_key ;;
      mic <- calc_mic E offset app_key 0 false ;;
      frame_memcpy offset mic 4 ;;;
      let offset := u8 (offset + 4) in
      mod_stk (set_uw_rx1_delay JOIN_DELAY) ;;;
      mod_stk (set_uw_rx2_delay (u32 (JOIN_DELAY + SECOND_RX_OFFSET))) ;;;
      mod_stk (set_uw_state TX) ;;;
      radio_tx offset ;;;
      ret ERR_NO
  | _ => ret ERR_STATE
  end.

(** src/stack.c:623-637 *)
Definition uwan_get_max_payload_size : C Z :=
  dr <- get_current_dr ;;
  max_pld_size <- (if dr <? 6 then arr_get uw_max_app_pld_size dr else ret 0) ;;
  m <- mac_get_payload_size ;;
  if m <=? max_pld_size then ret (u8 (max_pld_size - m)) else ret 0.

(** src/stack.c:639-716 *)
Definition uwan_send_frame (E : env) (f_port : Z) (payload : list Z) (pld_len : Z)
    (confirm : bool) : C err :=
  s <- get_stk uw_state ;;
  match s with
  | IDLE =>
      frequency <- channels_get_next E ;;
      if frequency =? 0 then ret ERR_CHANNEL else
      max <- uwan_get_max_payload_size ;;
      if max <? pld_len then ret ERR_MSG_LEN else
      mac_pld_size <- mac_get_payload_size ;;
      if (pld_len =? 0) && (mac_pld_size =? 0) then ret ERR_MSG_LEN else
      i <- get_current_dr ;;
      d <- arr_get uw_dr_table i ;;
      mod_params (set_sf_bw d) ;;;
      mod_params (set_iq false) ;;;
      deref_hal ;;;
      emit (RSetFreq frequency) ;;;
      p <- get_stk pkt_params ;;
      emit (RSetup p) ;;;
      apply_tx_power ;;;
      let mtype := if confirm then MTYPE_CONF_DATA_UP else MTYPE_UNCONF_DATA_UP in
      addr <- get_ses dev_addr ;;
      offset <- frame_puts 0 [u8 (Z.lor (Z.shiftl mtype 5) 0);
        Z.land addr 255; Z.land (Z.shiftr addr 8) 255;
        Z.land (Z.shiftr addr 16) 255; Z.land (Z.shiftr addr 24) 255] ;;
      adr <- uwan_adr_is_enabled ;;
      let f_ctrl := if (adr : bool) then Z.lor 0 128 else 0 in
      req <- adr_get_req_bit ;;
      let f_ctrl := if (req : bool) then Z.lor f_ctrl 64 else f_ctrl in
      ack <- get_ses ack_required ;;
      f_ctrl <- (if (ack : bool) then
                   mod_ses (set_ack_required false) ;;; ret (Z.lor f_ctrl 32)
                 else ret f_ctrl) ;;
      m <- mac_get_payload_size ;;
      let f_ctrl := Z.lor f_ctrl (Z.land m 15) in
      fu <- get_ses f_cnt_up ;;
      offset <- frame_puts offset [f_ctrl; Z.land fu 255; Z.land (Z.shiftr fu 8) 255] ;;
      fopts <- mac_get_payload 15 ;;
      frame_memcpy offset fopts (len fopts) ;;;
      let offset := u8 (offset + len fopts) in
      offset <- (if negb (pld_len =? 0) then
          offset <- frame_put offset f_port ;;
          frame_memcpy offset payload pld_len ;;;
          app <- get_ses app_s_key ;;
          encrypt_payload E offset pld_len app 0 ;;;
          ret (u8 (offset + pld_len))
        else ret offset) ;;
      nwk <- get_ses nwk_s_key ;;
      mic <- calc_mic E offset nwk 0 true ;;
      frame_memcpy offset mic 4 ;;;
      let offset := u8 (offset + 4) in
      fu <- get_ses f_cnt_up ;;
      mod_ses (set_f_cnt_up (u32 (fu + 1))) ;;;
      dl <- get_stk default_rx1_delay ;;
      mod_stk (set_uw_rx1_delay dl) ;;;
      mod_stk (set_uw_rx2_delay (u32 (dl + SECOND_RX_OFFSET))) ;;;
      mod_stk (set_uw_state TX) ;;;
      radio_tx offset ;;;
      adr_handle_uplink ;;;
      ret ERR_NO
  | _ => ret ERR_STATE
  end.

(** src/stack.c:718-726 *)
Definition uwan_timer_callback (t : timer_id) : C unit :=
  s <- get_stk uw_state ;;
  match s, t with
  | RX1, TIMER_RX1 => deref_hal ;;; emit (RRx FRAME_MAX_SIZE RX_SYMB_TIMEOUT 0)
  | RX2, TIMER_RX2 => deref_hal ;;; emit (RRx FRAME_MAX_SIZE RX_SYMB_TIMEOUT 0)
  | _, _ => ret tt
  end.

(** src/stack.c:728-732 *)
Definition uwan_set_dr (dr : Z) : C unit :=
  if is_valid_dr dr then
    mod_ses (set_ses_dr dr) ;;; mod_stk (set_default_dr dr)
  else ret tt.

(** src/stack.c:734-742 *)
Definition uwan_set_nb_trans (nb_trans : Z) : C bool :=
  ok <- set_nb_trans nb_trans ;;
  if (ok : bool) then mod_stk (set_default_nb_trans nb_trans) ;;; ret true else ret false.

(** src/stack.c:744-747 *)
Definition uwan_set_max_eirp (max_eirp : Z) : C unit :=
  mod_stk (set_default_max_eirp max_eirp).

(** src/stack.c:749-757 *)
Definition uwan_set_tx_power (tx_power : Z) : C bool :=
  ok <- set_tx_power tx_power ;;
  if (ok : bool) then mod_stk (set_default_tx_power tx_power) ;;; ret true else ret false.
