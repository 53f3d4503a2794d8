(** Preempt.v -- API calls that are interrupted.

    In Api.v calls and interrupts follow each other. Here radio interrupts and timers strike
    in the middle of uwan_send_frame, uwan_join and the MAC requests: [strikes] says which at
    which point. The points are the boundaries between the C statements of these functions;
    not modelled are strikes inside a statement or inside the functions they call. A strike
    runs to completion and is not interrupted itself. *)
From Verif Require Export Reent.
Open Scope m_scope.

(** the interrupts and timers at each point *)
Definition strikes := nat -> list op.
Definition isr (E : env) (I : strikes) (n : nat) : C unit := calls E (I n).

(** src/stack.c:639-716. Point 12 is between the assignment of uw_state and the call of
    radio->tx, point 13 after that call and before adr_handle_uplink. *)
Definition uwan_send_frame_isr (E : env) (I : strikes) (f_port : Z) (payload : list Z) (pld_len : Z)
    (confirm : bool) : C err :=
  s <- get_stk uw_state ;;
  match s with
  | IDLE =>
      isr E I 0 ;;;
      frequency <- channels_get_next E ;;
      isr E I 1 ;;;
      if frequency =? 0 then ret ERR_CHANNEL else
      max <- uwan_get_max_payload_size ;;
      isr E I 2 ;;;
      if max <? pld_len then ret ERR_MSG_LEN else
      mac_pld_size <- mac_get_payload_size ;;
      isr E I 3 ;;;
      if (pld_len =? 0) && (mac_pld_size =? 0) then ret ERR_MSG_LEN else
      i <- get_current_dr ;;
      d <- arr_get uw_dr_table i ;;
      mod_params (set_sf_bw d) ;;;
      mod_params (set_iq false) ;;;
      deref_hal ;;;
      emit (RSetFreq frequency) ;;;
      isr E I 4 ;;;
      p <- get_stk pkt_params ;;
      emit (RSetup p) ;;;
      isr E I 5 ;;;
      apply_tx_power ;;;
      isr E I 6 ;;;
      let mtype := if confirm then MTYPE_CONF_DATA_UP else MTYPE_UNCONF_DATA_UP in
      addr <- get_ses dev_addr ;;
      offset <- frame_puts 0 [u8 (Z.lor (Z.shiftl mtype 5) 0);
        Z.land addr 255; Z.land (Z.shiftr addr 8) 255;
        Z.land (Z.shiftr addr 16) 255; Z.land (Z.shiftr addr 24) 255] ;;
      isr E I 7 ;;;
      adr <- uwan_adr_is_enabled ;;
      let f_ctrl := if (adr : bool) then Z.lor 0 128 else 0 in
      req <- adr_get_req_bit ;;
      let f_ctrl := if (req : bool) then Z.lor f_ctrl 64 else f_ctrl in
      ack <- get_ses ack_required ;;
      f_ctrl <- (if (ack : bool) then
                   mod_ses (set_ack_required false) ;;; ret (Z.lor f_ctrl 32)
                 else ret f_ctrl) ;;
      isr E I 8 ;;;
      m <- mac_get_payload_size ;;
      let f_ctrl := Z.lor f_ctrl (Z.land m 15) in
      fu <- get_ses f_cnt_up ;;
      offset <- frame_puts offset [f_ctrl; Z.land fu 255; Z.land (Z.shiftr fu 8) 255] ;;
      isr E I 9 ;;;
      fopts <- mac_get_payload 15 ;;
      frame_memcpy offset fopts (len fopts) ;;;
      let offset := u8 (offset + len fopts) in
      isr E I 10 ;;;
      offset <- (if negb (pld_len =? 0) then
          offset <- frame_put offset f_port ;;
          frame_memcpy offset payload pld_len ;;;
          app <- get_ses app_s_key ;;
          encrypt_payload E offset pld_len app 0 ;;;
          ret (u8 (offset + pld_len))
        else ret offset) ;;
      nwk <- get_ses nwk_s_key ;;
      mic <- calc_mic E offset nwk 0 true ;;
      frame_memcpy offset mic 4 ;;;
      let offset := u8 (offset + 4) in
      isr E I 11 ;;;
      fu <- get_ses f_cnt_up ;;
      mod_ses (set_f_cnt_up (u32 (fu + 1))) ;;;
      dl <- get_stk default_rx1_delay ;;
      mod_stk (set_uw_rx1_delay dl) ;;;
      mod_stk (set_uw_rx2_delay (u32 (dl + SECOND_RX_OFFSET))) ;;;
      mod_stk (set_uw_state TX) ;;;
      isr E I 12 ;;;
      radio_tx offset ;;;
      isr E I 13 ;;;
      adr_handle_uplink ;;;
      ret ERR_NO
  | _ => ret ERR_STATE
  end.

(** src/stack.c:578-621. Points 12 and 13 as above; what follows point 13 is the return. *)
Definition uwan_join_isr (E : env) (I : strikes) : C err :=
  s <- get_stk uw_state ;;
  match s with
  | IDLE =>
      isr E I 0 ;;;
      frequency <- channels_get_next E ;;
      isr E I 1 ;;;
      if frequency =? 0 then ret ERR_CHANNEL else
      i <- get_stk default_dr ;;
      d <- arr_get uw_dr_table i ;;
      mod_params (set_sf_bw d) ;;;
      mod_params (set_iq false) ;;;
      deref_hal ;;;
      emit (RSetFreq frequency) ;;;
      isr E I 2 ;;;
      p <- get_stk pkt_params ;;
      emit (RSetup p) ;;;
      isr E I 3 ;;;
      apply_tx_power ;;;
      isr E I 4 ;;;
      mod_ses (set_is_joined false) ;;;
      isr E I 5 ;;;
      mod_stk (set_uw_is_join_state true) ;;;
      isr E I 6 ;;;
      offset <- frame_put 0 (u8 (Z.lor (Z.shiftl MTYPE_JOIN_REQUEST 5) 0)) ;;
      app_eui <- get_stk uw_app_eui ;;
      frame_memcpy offset app_eui 8 ;;;
      let offset := u8 (offset + 8) in
      offset <- put_eui_rev 8 offset ;;
      isr E I 7 ;;;
      nonce <- utils_get_random E 65536 ;;
      mod_stk (set_uw_dev_nonce nonce) ;;;
      offset <- frame_puts offset [Z.land nonce 255; Z.land (Z.shiftr nonce 8) 255] ;;
      isr E I 8 ;;;
      app_key <- get_stk uw_app_key ;;
      mic <- calc_mic E offset app_key 0 false ;;
      frame_memcpy offset mic 4 ;;;
      let offset := u8 (offset + 4) in
      isr E I 9 ;;;
      mod_stk (set_uw_rx1_delay JOIN_DELAY) ;;;
      mod_stk (set_uw_rx2_delay (u32 (JOIN_DELAY + SECOND_RX_OFFSET))) ;;;
      mod_stk (set_uw_state TX) ;;;
      isr E I 12 ;;;
      radio_tx offset ;;;
      isr E I 13 ;;;
      ret ERR_NO
  | _ => ret ERR_STATE
  end.

(** src/mac.c:256-270 with size 0. mac_buf[mac_buf_pos++] = cid is one statement. *)
Definition mac_enqueue_isr (E : env) (I : strikes) (cid : Z) : C bool :=
  pos <- get_mac mac_buf_pos ;;
  let free := u8 (15 - pos) in
  isr E I 0 ;;;
  if free <? 1 then ret false else
  isr E I 1 ;;;
  pos <- get_mac mac_buf_pos ;;
  b <- get_mac mac_buf ;;
  b' <- arr_set b pos cid ;;
  mod_mac (set_mac_buf b') ;;;
  mod_mac (set_mac_buf_pos (u8 (pos + 1))) ;;;
  isr E I 2 ;;;
  ret true.
(** src/mac.c:213-216 *)
Definition uwan_mac_link_check_req_isr (E : env) (I : strikes) : C bool := mac_enqueue_isr E I CID_LINK_CHECK.

(** One call with its interrupts: return value, external calls in the order they are made,
    those of the interrupts among them, and the next world; None = UB. Other calls are not
    interrupted. *)
Definition call_isr (E : env) (I : strikes) (o : op) : C val :=
  match o with
  | OSend p d c => as_err (uwan_send_frame_isr E I p d (len d) c)
  | OJoin => as_err (uwan_join_isr E I)
  | OLinkCheckReq => as_bool (uwan_mac_link_check_req_isr E I)
  | _ => call E o
  end.
Definition step_isr (E : env) (I : strikes) (w : world) (o : op) : option (val * list ev * world) :=
  match call_isr E I o (w_hist w) (w_st w) with
  | Undef _ => None
  | Ok (v, s', es) => Some (v, es, Mk_world s' (w_hist w ++ es))
  end.
