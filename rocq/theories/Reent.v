(** Reent.v -- the radio event handler when the application's handlers call back into the
    library.

    In Stack.v a call of an application handler is one event and nothing else happens in it.
    Here the application answers such an event by calling the API before it returns: a
    [reaction] says which calls, as a function of everything that happened so far. The
    handlers are link_check_result, device_time_result, get_battery_level, get_device_time
    (include/uwan/stack.h:153-158, called in src/mac.c) and downlink_callback
    (src/stack.c:439).

    The calls made inside a handler are those of Api.v, in which no handler reacts: handlers
    nest once. The timer and radio functions of the port and the clock package's callbacks
    do not react. *)
From Verif Require Export Api.

Definition reaction := list ev -> list op.

Fixpoint calls (E : env) (ops : list op) : C unit :=
  match ops with
  | [] => ret tt
  | o :: ops' => call E o ;;; calls E ops'
  end.
(** what the application does inside the handler whose call is the last event so far *)
Definition react (E : env) (R : reaction) : C unit := fun h s => calls E (R h) h s.

(** src/mac.c:89-98; the arguments are read before the handler runs *)
Definition link_check_re (E : env) (R : reaction) (pld : list Z) : C bool :=
  cbs <- get_mac mac_cbs ;;
  match cbs with
  | Some c =>
      if has_link_check_result c then
        margin <- arr_get pld 0 ;;
        gw_cnt <- arr_get pld 1 ;;
        emit (MLinkCheck margin gw_cnt) ;;;
        react E R ;;;
        ret true
      else ret true
  | None => ret true
  end.

(** src/mac.c:138-149; the margin is read before the handler runs *)
Definition dev_status_re (E : env) (R : reaction) (pld : list Z) : C bool :=
  snr <- get_snr ;;
  let status1 := u8 (Z.land snr 63) in
  cbs <- get_mac mac_cbs ;;
  status0 <- match cbs with
             | Some c => if has_get_battery_level c
                         then b <- query (e_battery E) MBattery ;; react E R ;;; ret b
                         else ret 255
             | None => ret 255
             end ;;
  mac_enqueue CID_DEV_STATUS [status0; status1].

(** src/mac.c:185-196 *)
Definition device_time_re (E : env) (R : reaction) (pld : list Z) : C bool :=
  cbs <- get_mac mac_cbs ;;
  match cbs with
  | Some c =>
      if has_device_time_result c then
        p0 <- arr_get pld 0 ;;
        p1 <- arr_get pld 1 ;;
        p2 <- arr_get pld 2 ;;
        p3 <- arr_get pld 3 ;;
        p3s <- shl24 E p3 ;;
        let gps_seconds :=
          u32 (Z.lor (Z.lor (Z.lor p0 (Z.shiftl p1 8)) (Z.shiftl p2 16)) p3s) in
        let unixtime := utils_gps_to_unix gps_seconds in
        fraq <- arr_get pld 4 ;;
        dt <- get_mac mac_dev_time ;;
        emit (MTimeResult dt unixtime fraq) ;;;
        react E R ;;;
        ret true
      else ret true
  | None => ret true
  end.

(** src/mac.c:32-41, 72-87 *)
Definition mac_commands_re (E : env) (R : reaction) : list ((list Z -> C bool) * Z * Z) := [
  (link_check_re E R, CID_LINK_CHECK, 2);
  (link_adr, CID_LINK_ADR, 4);
  (duty_cycle, CID_DUTY_CYCLE, 1);
  (rx_param_setup, CID_RX_PARAM_SETUP, 4);
  (dev_status_re E R, CID_DEV_STATUS, 0);
  (new_channel, CID_NEW_CHANNEL, 5);
  (rx_timing_setup, CID_RX_TIMING_SETUP, 1);
  (tx_param_setup, CID_TX_PARAM_SETUP, 1);
  (di_channel, CID_DI_CHANNEL, 4);
  (device_time_re E R, CID_DEVICE_TIME, 5)
].

(** src/mac.c:231-254, with [start] and [stop] ("end" in C) as offsets into uw_frame. The
    bytes are read from the buffer in each turn, because a handler may have changed it. *)
Fixpoint mac_loop_re (E : env) (R : reaction) (fuel : nat) (start stop : Z) : C unit :=
  if start <? stop then
    match fuel with
    | O => fail UB_diverge
    | S fuel' =>
        cid <- frame_get start ;;
        rest <- frame_read (start + 1) (stop - (start + 1)) ;;
        '(status, rest') <- mac_dispatch (mac_commands_re E R) cid rest ;;
        if negb status then ret tt else mac_loop_re E R fuel' (stop - len rest') stop
    end
  else ret tt.
Definition mac_handle_commands_re (E : env) (R : reaction) (off n : Z) : C unit :=
  mac_loop_re E R (Z.to_nat n) off (off + n).

(** src/stack.c:320-415 *)
Definition handle_data_msg_re (E : env) (R : reaction) (p : pkt) : C (err * pkt) :=
  let size := pk_size p in
  let msg_min_size := 12 in
  if size <? msg_min_size then ret (ERR_MSG_LEN, p) else
  mhdr <- frame_get 0 ;;
  if negb (Z.land (Z.shiftr mhdr 0) 3 =? 0) then ret (ERR_MSG_MHDR, p) else
  let mtype := Z.land (Z.shiftr mhdr 5) 7 in
  if negb (mtype =? MTYPE_UNCONF_DATA_DOWN) && negb (mtype =? MTYPE_CONF_DATA_DOWN)
  then ret (ERR_MSG_MHDR, p) else
  (if mtype =? MTYPE_CONF_DATA_DOWN then mod_ses (set_ack_required true) else ret tt) ;;;
  b1 <- frame_get 1 ;; b2 <- frame_get 2 ;; b3 <- frame_get 3 ;; b4 <- frame_get 4 ;;
  b4s <- shl24 E b4 ;;
  let addr := u32 (Z.lor (Z.lor (Z.lor b1 (Z.shiftl b2 8)) (Z.shiftl b3 16)) b4s) in
  own <- get_ses dev_addr ;;
  if negb (own =? addr) then ret (ERR_DEV_ADDR, p) else
  f_ctrl <- frame_get 5 ;;
  let f_opts_len := Z.land f_ctrl 15 in
  if size <? msg_min_size + f_opts_len then ret (ERR_MSG_LEN, p) else
  b6 <- frame_get 6 ;; b7 <- frame_get 7 ;;
  let f_cnt := u16 (Z.lor b6 (Z.shiftl b7 8)) in
  fresh <- update_f_cnt_down f_cnt ;;
  if negb fresh then ret (ERR_FCNT, p) else
  mod_stk (set_current_snr (pk_snr p)) ;;;
  (if 0 <? f_opts_len then mac_handle_commands_re E R 8 f_opts_len else ret tt) ;;;
  let offset := u8 (8 + f_opts_len) in
  let rest := u8 (size - (msg_min_size + f_opts_len)) in
  '(p1, pld, pld_size) <-
    (if 0 <? rest then
       port <- frame_get offset ;;
       ret (Mk_pkt (pk_off p) size port (pk_rssi p) (pk_snr p),
            Some (u8 (offset + 1)), rest - 1)
     else ret (p, None, rest)) ;;
  nwk <- get_ses nwk_s_key ;;
  mic <- calc_mic E (u8 (size - 4)) nwk 1 true ;;
  got <- frame_read (size - 4) 4 ;;
  if negb (memeq got mic) then ret (ERR_MSG_MIC, p1) else
  (if 0 <? pld_size then
     app <- get_ses app_s_key ;;
     let key := if pk_port p1 =? 0 then nwk else app in
     match pld with
     | None => fail UB_null
     | Some o => encrypt_payload E o pld_size key 1
     end
   else ret tt) ;;;
  adr_handle_downlink ;;;
  ret (ERR_NO, Mk_pkt pld pld_size (pk_port p1) (pk_rssi p1) (pk_snr p1)).

(** src/stack.c:417-440 *)
Definition handle_downlink_re (E : env) (R : reaction) (e : err) : C unit :=
  deref_hal ;;;
  let p0 := Mk_pkt None 0 0 0 0 in
  p1 <- (if is_ERR_NO e then
           rx <- query (e_pkt E) RRead ;;
           frame_memcpy 0 (rx_data rx) (len (rx_data rx)) ;;;
           ret (Mk_pkt (Some 0) (len (rx_data rx)) 0 (rx_rssi rx) (rx_snr rx))
         else ret p0) ;;
  emit RSleep ;;;
  '(e', mtype, p2) <-
    (if is_ERR_NO e then
       b0 <- frame_get 0 ;;
       let mtype := Z.land (Z.shiftr b0 5) 7 in
       join <- get_stk uw_is_join_state ;;
       (if (join : bool) then
          r <- handle_join_msg E p1 ;; ret (r, mtype, p1)
        else
          '(r, p') <- handle_data_msg_re E R p1 ;; ret (r, mtype, p'))
     else ret (e, MTYPE_JOIN_REQUEST, p1)) ;;
  mod_stk (set_uw_is_join_state false) ;;;
  v <- view_of p2 ;;
  emit (CbDown e' mtype v) ;;;
  react E R.

(** src/mac.c:272-279: the handler's result is stored after it returned *)
Definition mac_on_tx_complete_re (E : env) (R : reaction) : C unit :=
  save <- get_mac mac_save_dev_time ;;
  if save then
    mod_mac (set_mac_save_dev_time false) ;;;
    cbs <- get_mac mac_cbs ;;
    match cbs with
    | None => fail UB_null
    | Some c =>
        if has_get_device_time c then
          t <- query (e_devtime E) MGetTime ;;
          react E R ;;;
          mod_mac (set_mac_dev_time t)
        else ret tt
    end
  else ret tt.

(** src/stack.c:448-471 *)
Definition evt_tx_done_re (E : env) (R : reaction) : C unit :=
  mod_stk (set_uw_state RX1) ;;;
  deref_hal ;;;
  d1 <- get_stk uw_rx1_delay ;;
  emit (TStart TIMER_RX1 d1) ;;;
  d2 <- get_stk uw_rx2_delay ;;
  emit (TStart TIMER_RX2 d2) ;;;
  off <- get_stk uw_rx1_offset ;;
  (if negb (off =? 0) then
     dr_id <- get_current_dr ;;
     let dr_id := if dr_id <? off then DR_0 else dr_id - off in
     d <- arr_get uw_dr_table dr_id ;;
     mod_params (set_sf_bw d)
   else ret tt) ;;;
  mod_params (set_iq true) ;;;
  p <- get_stk pkt_params ;;
  emit (RSetup p) ;;;
  mac_on_tx_complete_re E R.

(** src/stack.c:442-511 *)
Definition evt_handler_re (E : env) (R : reaction) (evt_mask : Z) : C unit :=
  s <- get_stk uw_state ;;
  match s with
  | NOT_INIT | IDLE => ret tt
  | TX => if irq_has evt_mask IRQF_TX_DONE then evt_tx_done_re E R else ret tt
  | RX1 =>
      if irq_has evt_mask IRQF_RX_TIMEOUT then evt_rx1_timeout
      else if irq_has evt_mask IRQF_RX_DONE then
        deref_hal ;;;
        emit (TStop TIMER_RX2) ;;;
        mod_stk (set_uw_state IDLE) ;;;
        (if irq_has evt_mask IRQF_CRC_ERROR then handle_downlink_re E R ERR_RX_CRC
         else handle_downlink_re E R ERR_NO)
      else ret tt
  | RX2 =>
      if irq_has evt_mask IRQF_RX_TIMEOUT then
        mod_stk (set_uw_state IDLE) ;;;
        handle_downlink_re E R ERR_RX_TIMEOUT
      else if irq_has evt_mask IRQF_RX_DONE then
        mod_stk (set_uw_state IDLE) ;;;
        (if irq_has evt_mask IRQF_CRC_ERROR then handle_downlink_re E R ERR_RX_CRC
         else handle_downlink_re E R ERR_NO)
      else ret tt
  end.

(** One radio interrupt with the application reacting: the external calls made, those of the
    nested API calls among them, and the next world; None = UB. Every other call of Api.v
    runs no handler of this file. *)
Definition irq_re (E : env) (R : reaction) (w : world) (m : Z) : option (list ev * world) :=
  match evt_handler_re E R m (w_hist w) (w_st w) with
  | Undef _ => None
  | Ok (_, s', es) => Some (es, Mk_world s' (w_hist w ++ es))
  end.
