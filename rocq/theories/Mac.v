(** Mac.v -- src/adr.c, src/mac.c and the small accessors of src/stack.c that
    they call. *)
From Verif Require Export Channels.

(** *** Accessors of src/stack.c *)

(** src/stack.c:789-797 *)
Definition set_nb_trans (nb_trans : Z) : C bool :=
  if (NB_TRANS_MIN <=? nb_trans) && (nb_trans <=? NB_TRANS_MAX) then
    mod_stk (set_uw_nb_trans nb_trans) ;;; ret true
  else ret false.

(** src/stack.c:799-802 *)
Definition reset_nb_trans : C unit :=
  d <- get_stk default_nb_trans ;; mod_stk (set_uw_nb_trans d).

(** src/stack.c:86-88 *)
Definition uw_tx_power_table : list Z := [0; 2; 4; 6; 8; 10; 12; 14].

(** src/stack.c:804-808 *)
Definition is_valid_tx_power (tx_power : Z) : bool :=
  let count := u8 (len uw_tx_power_table) in tx_power <? count.

(** src/stack.c:810-818 *)
Definition set_tx_power (tx_power : Z) : C bool :=
  if is_valid_tx_power tx_power then
    mod_stk (set_uw_tx_power tx_power) ;;; ret true
  else ret false.

(** src/stack.c:820-823 *)
Definition get_snr : C Z := get_stk current_snr.

(** *** MAC answer queue, src/mac.c *)

(** src/mac.h:31-40 *)
Definition CID_LINK_CHECK := 2.
Definition CID_LINK_ADR := 3.
Definition CID_DUTY_CYCLE := 4.
Definition CID_RX_PARAM_SETUP := 5.
Definition CID_DEV_STATUS := 6.
Definition CID_NEW_CHANNEL := 7.
Definition CID_RX_TIMING_SETUP := 8.
Definition CID_TX_PARAM_SETUP := 9.
Definition CID_DI_CHANNEL := 10.
Definition CID_DEVICE_TIME := 13.

(** src/mac.c:256-270; [data] are the [size] bytes passed by the caller, the
    pointer is NULL exactly when the list is empty. *)
Definition mac_enqueue (cid : Z) (data : list Z) : C bool :=
  buf <- get_mac mac_buf ;;
  pos <- get_mac mac_buf_pos ;;
  let size := len data in
  let free := u8 (len buf - pos) in
  if free <? 1 + size then ret false else
  buf1 <- arr_set buf pos cid ;;
  mod_mac (set_mac_buf buf1) ;;;
  mod_mac (set_mac_buf_pos (u8 (pos + 1))) ;;;
  (if negb (size =? 0) then
     pos1 <- get_mac mac_buf_pos ;;
     buf2 <- arr_memcpy buf1 pos1 data size ;;
     mod_mac (set_mac_buf buf2) ;;;
     mod_mac (set_mac_buf_pos (u8 (pos1 + size)))
   else ret tt) ;;;
  ret true.

(** src/mac.c:225-229 *)
Definition mac_init : C unit :=
  mod_mac (set_mac_buf_pos 0) ;;;
  mod_mac (set_mac_save_dev_time false).

(** src/mac.c:272-279; [mac_cbs] is dereferenced without a NULL check. *)
Definition mac_on_tx_complete (E : env) : C unit :=
  save <- get_mac mac_save_dev_time ;;
  if save then
    mod_mac (set_mac_save_dev_time false) ;;;
    cbs <- get_mac mac_cbs ;;
    match cbs with
    | None => fail UB_null
    | Some c =>
        if has_get_device_time c then
          t <- query (e_devtime E) MGetTime ;;
          mod_mac (set_mac_dev_time t)
        else ret tt
    end
  else ret tt.

(** src/mac.c:281-284 *)
Definition mac_get_payload_size : C Z := get_mac mac_buf_pos.

(** src/mac.c:286-297: returns the bytes copied (their number is the C
    result); the destination is written by the caller in Stack.v. *)
Definition mac_get_payload (buf_size : Z) : C (list Z) :=
  buf <- get_mac mac_buf ;;
  pos <- get_mac mac_buf_pos ;;
  if pos <=? buf_size then
    (if len buf <? pos then fail UB_oob else ret tt) ;;;
    mod_mac (set_mac_buf_pos 0) ;;;
    ret (firstn (Z.to_nat pos) buf)
  else ret [].

(** *** src/adr.c *)

(** src/adr.c:53-56 *)
Definition uwan_adr_is_enabled : C bool := get_adr adr_is_enabled.

(** src/adr.c:58-62 *)
Definition uwan_adr_enable (enable : bool) : C unit :=
  mod_adr (set_adr_is_enabled enable) ;;;
  mod_adr (set_ack_cnt 0).

(** src/adr.c:64-68 *)
Definition uwan_adr_setup_ack (limit delay : Z) : C unit :=
  mod_adr (set_ack_limit limit) ;;;
  mod_adr (set_ack_delay delay).

(** src/adr.c:70-76 *)
Definition adr_get_req_bit : C bool :=
  en <- get_adr adr_is_enabled ;;
  dr <- get_ses ses_dr ;;
  if negb en || (dr =? DR_0) then ret false else
  cnt <- get_adr ack_cnt ;;
  lim <- get_adr ack_limit ;;
  ret (lim <=? cnt).

(** src/adr.c:78-107. [uw_region] is dereferenced. Note line 87: the mask
    applied to the ChMaskCntl field is REDUNDANCY_CH_MASK_CNTL_SHIFT (4). *)
Definition adr_handle_link_req (dr_txpow ch_mask redundancy : Z) : C bool :=
  reg <- get_stk uw_region ;;
  match reg with
  | None => fail UB_null
  | Some r =>
      let dr := Z.land (Z.shiftr dr_txpow 4) 15 in
      let result1 := if is_valid_dr dr then Z.lor 0 2 else 0 in
      let ch_mask_cntl := Z.land (Z.shiftr redundancy 4) 4 in
      m <- region_handle_adr_ch_mask r ch_mask ch_mask_cntl true ;;
      let result2 := if (m : bool) then Z.lor result1 1 else result1 in
      let tx_power := Z.land dr_txpow 15 in
      let result3 := if is_valid_tx_power tx_power then Z.lor result2 4 else result2 in
      (if result3 =? 7 then
         let nb_trans := Z.land redundancy 15 in
         ok <- set_nb_trans nb_trans ;;
         (if negb ok then reset_nb_trans else ret tt) ;;;
         set_tx_power tx_power ;;;
         mod_ses (set_ses_dr dr) ;;;
         region_handle_adr_ch_mask r ch_mask ch_mask_cntl false ;;;
         ret tt
       else ret tt) ;;;
      mac_enqueue CID_LINK_ADR [result3]
  end.

(** src/adr.c:109-117; ack_limit + ack_delay is an int sum of two uint8_t. *)
Definition adr_handle_uplink : C unit :=
  c0 <- get_adr ack_cnt ;;
  mod_adr (set_ack_cnt (u32 (c0 + 1))) ;;;
  dr <- get_ses ses_dr ;;
  cnt <- get_adr ack_cnt ;;
  lim <- get_adr ack_limit ;;
  del <- get_adr ack_delay ;;
  if negb (dr =? DR_0) && (lim + del <? cnt) then
    mod_ses (set_ses_dr (dr - 1)) ;;;
    mod_adr (set_ack_cnt 0)
  else ret tt.

(** src/adr.c:119-122 *)
Definition adr_handle_downlink : C unit := mod_adr (set_ack_cnt 0).

(** *** MAC command handlers, src/mac.c. [pld] are the bytes from the handler's
    pointer to the end of the FOpts field; reading past them is UB_oob. *)

(** src/mac.c:89-98 *)
Definition link_check (pld : list Z) : C bool :=
  cbs <- get_mac mac_cbs ;;
  match cbs with
  | Some c =>
      if has_link_check_result c then
        margin <- arr_get pld 0 ;;
        gw_cnt <- arr_get pld 1 ;;
        emit (MLinkCheck margin gw_cnt) ;;;
        ret true
      else ret true
  | None => ret true
  end.

(** src/mac.c:100-103; the second argument is uint16_t. *)
Definition link_adr (pld : list Z) : C bool :=
  p0 <- arr_get pld 0 ;;
  p1 <- arr_get pld 1 ;;
  p2 <- arr_get pld 2 ;;
  p3 <- arr_get pld 3 ;;
  adr_handle_link_req p0 (u16 (Z.lor p1 (Z.shiftl p2 8))) p3.

(** src/mac.c:105-109 *)
Definition duty_cycle (pld : list Z) : C bool := mac_enqueue CID_DUTY_CYCLE [].

(** src/mac.c:111-136 *)
Definition rx_param_setup (pld : list Z) : C bool :=
  dl_settings <- arr_get pld 0 ;;
  let rx1_dr_offset := Z.land (Z.shiftr dl_settings 4) 7 in
  let rx2_dr := Z.land dl_settings 15 in
  p1 <- arr_get pld 1 ;;
  p2 <- arr_get pld 2 ;;
  p3 <- arr_get pld 3 ;;
  let rx2_freq := u32 (Z.lor (Z.lor p1 (Z.shiftl p2 8)) (Z.shiftl p3 16) * 100) in
  let status := 0 in
  let status := if is_valid_dr rx1_dr_offset then Z.lor status 4 else status in
  let status := if is_valid_dr rx2_dr then Z.lor status 2 else status in
  let status := if is_valid_frequency rx2_freq then Z.lor status 1 else status in
  (if status =? 7 then
     uwan_set_rx1_dr_offset rx1_dr_offset ;;;
     uwan_set_rx2 rx2_freq rx2_dr ;;;
     ret tt
   else ret tt) ;;;
  mac_enqueue CID_RX_PARAM_SETUP [status].

(** src/mac.c:138-149 *)
Definition dev_status (E : env) (pld : list Z) : C bool :=
  snr <- get_snr ;;
  let status1 := u8 (Z.land snr 63) in
  cbs <- get_mac mac_cbs ;;
  status0 <- match cbs with
             | Some c => if has_get_battery_level c
                         then query (e_battery E) MBattery else ret 255
             | None => ret 255
             end ;;
  mac_enqueue CID_DEV_STATUS [status0; status1].

(** src/mac.c:151-170 *)
Definition new_channel (pld : list Z) : C bool :=
  ch_index <- arr_get pld 0 ;;
  p1 <- arr_get pld 1 ;;
  p2 <- arr_get pld 2 ;;
  p3 <- arr_get pld 3 ;;
  let freq := u32 (Z.lor (Z.lor p1 (Z.shiftl p2 8)) (Z.shiftl p3 16) * 100) in
  dr_range <- arr_get pld 4 ;;
  let status := 0 in
  let status := if is_valid_frequency freq then Z.lor status 1 else status in
  let status := if dr_range =? 80 then Z.lor status 2 else status in
  status <- (if status =? 3 then
               e <- uwan_set_channel ch_index freq ;;
               if negb (is_ERR_NO e) then ret 0 else ret status
             else ret status) ;;
  mac_enqueue CID_NEW_CHANNEL [status].

(** src/mac.c:172-183 *)
Definition rx_timing_setup (pld : list Z) : C bool :=
  p0 <- arr_get pld 0 ;;
  let delay := Z.land p0 15 in
  let delay := if delay =? 0 then 1 else delay in
  uwan_set_rx1_delay delay ;;;
  mac_enqueue CID_RX_TIMING_SETUP [].

(** src/mac.c:185-196 *)
Definition device_time (E : env) (pld : list Z) : C bool :=
  cbs <- get_mac mac_cbs ;;
  match cbs with
  | Some c =>
      if has_device_time_result c then
        p0 <- arr_get pld 0 ;;
        p1 <- arr_get pld 1 ;;
        p2 <- arr_get pld 2 ;;
        p3 <- arr_get pld 3 ;;
        p3s <- shl24 E p3 ;;
        let gps_seconds :=
          u32 (Z.lor (Z.lor (Z.lor p0 (Z.shiftl p1 8)) (Z.shiftl p2 16)) p3s) in
        let unixtime := utils_gps_to_unix gps_seconds in
        fraq <- arr_get pld 4 ;;
        dt <- get_mac mac_dev_time ;;
        emit (MTimeResult dt unixtime fraq) ;;;
        ret true
      else ret true
  | None => ret true
  end.

(** src/mac.c:198-201, 203-206 *)
Definition tx_param_setup (pld : list Z) : C bool := ret true.
Definition di_channel (pld : list Z) : C bool := ret true.

(** src/mac.c:208-211 *)
Definition uwan_mac_set_handlers (cbs : option mac_callbacks) : C unit :=
  mod_mac (set_mac_cbs cbs).

(** src/mac.c:213-216 *)
Definition uwan_mac_link_check_req : C bool := mac_enqueue CID_LINK_CHECK [].

(** src/mac.c:218-223 *)
Definition uwan_mac_device_time_req : C bool :=
  result <- mac_enqueue CID_DEVICE_TIME [] ;;
  mod_mac (set_mac_save_dev_time result) ;;;
  ret result.

(** src/mac.c:32-41, 72-87 *)
Definition mac_commands (E : env) : list ((list Z -> C bool) * Z * Z) := [
  (link_check, CID_LINK_CHECK, 2);
  (link_adr, CID_LINK_ADR, 4);
  (duty_cycle, CID_DUTY_CYCLE, 1);
  (rx_param_setup, CID_RX_PARAM_SETUP, 4);
  (dev_status E, CID_DEV_STATUS, 0);
  (new_channel, CID_NEW_CHANNEL, 5);
  (rx_timing_setup, CID_RX_TIMING_SETUP, 1);
  (tx_param_setup, CID_TX_PARAM_SETUP, 1);
  (di_channel, CID_DI_CHANNEL, 4);
  (device_time E, CID_DEVICE_TIME, 5)
].

(** src/mac.c:241-249: the search through the table. [rest] are the bytes from
    [start] to [end]. Result: [status] and the advanced [start]. *)
Fixpoint mac_dispatch (cmds : list ((list Z -> C bool) * Z * Z)) (cid : Z)
    (rest : list Z) : C (bool * list Z) :=
  match cmds with
  | [] => ret (false, rest)
  | (handler, c, pld_size) :: cmds' =>
      if cid =? c then
        if pld_size <=? len rest then
          status <- handler rest ;;
          ret (status, skipn (Z.to_nat pld_size) rest)
        else ret (false, rest)
      else mac_dispatch cmds' cid rest
  end.

(** src/mac.c:231-254: while (start < end). Each turn consumes at least the
    CID, so the number of bytes bounds the number of turns. *)
Fixpoint mac_handle_loop (E : env) (fuel : nat) (rest : list Z) : C unit :=
  match fuel, rest with
  | _, [] => ret tt
  | O, _ => fail UB_diverge
  | S fuel', cid :: rest' =>
      '(status, rest'') <- mac_dispatch (mac_commands E) cid rest' ;;
      if negb status then ret tt else mac_handle_loop E fuel' rest''
  end.
Definition mac_handle_commands (E : env) (buf : list Z) : C unit :=
  mac_handle_loop E (length buf) buf.
