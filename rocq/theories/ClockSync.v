(** ClockSync.v -- src/ext/clock_sync.c *)
From Verif Require Export Stack.

Definition CS_PORT := 202. (* include/uwan/ext/clock_sync.h:30 *)
Definition INT_MAX := 2147483647.

(** int multiplication; overflow is undefined *)
Definition int_mul (a b : Z) : C Z :=
  if (a * b <=? INT_MAX) && (- INT_MAX - 1 <=? a * b) then ret (a * b)
  else fail UB_overflow.

(** src/ext/clock_sync.c:86-87 *)
Fixpoint square_loop (n : nat) (mul : Z) : C Z :=
  match n with
  | O => ret mul
  | S n' => m <- int_mul mul mul ;; square_loop n' m
  end.

(** src/ext/clock_sync.c:60-91 *)
Definition periodicity_from_period_id (id : Z) : C Z :=
  mul <- (if id =? 0 then ret 1 else square_loop (Z.to_nat (id - 1)) 2) ;;
  r <- int_mul 128 mul ;;
  ret (u32 r).

(** (1 << cmd), src/ext/clock_sync.c:110: int shift; undefined for cmd >= 32,
    and under [e_strict_shl] also for cmd = 31; stored in a uint8_t. *)
Definition cmd_bit (E : env) (cmd : Z) : C Z :=
  if 32 <=? cmd then fail UB_shift else
  if e_strict_shl E && (cmd =? 31) then fail UB_shift else
  ret (u8 (Z.shiftl 1 cmd)).

(** buf[i]; None is the NULL pointer *)
Definition cs_get (buf : option (list Z)) (i : Z) : C Z :=
  match buf with None => fail UB_null | Some l => arr_get l i end.

(** ans_buf[off++] = b ... *)
Fixpoint ans_puts (off : Z) (bs : list Z) : C Z :=
  match bs with
  | [] => ret off
  | b :: bs' =>
      a <- get_cs ans_buf ;;
      a' <- arr_set a off b ;;
      mod_cs (set_ans_buf a') ;;;
      ans_puts (u8 (off + 1)) bs'
  end.

(** src/ext/clock_sync.c:154-157, 230-233: a uint32_t stored byte by byte *)
Definition time_bytes (t : Z) : list Z :=
  [u8 t; u8 (Z.shiftr t 8); u8 (Z.shiftr t 16); u8 (Z.shiftr t 24)].

(** src/ext/clock_sync.c:115-168, the switch. Result: new [offset] and new
    [ans_buf_offset]. *)
Definition cs_command (E : env) (cbs : cs_cbs) (buf : option (list Z)) (size : Z)
    (cmd offset aoff : Z) : C (Z * Z) :=
  if cmd =? 0 then
    aoff' <- ans_puts aoff [0; 1; 1] ;; ret (offset, aoff')
  else if cmd =? 1 then
    if size - offset <? 5 then ret (offset, aoff) else
    b0 <- cs_get buf offset ;; let offset := u8 (offset + 1) in
    b1 <- cs_get buf offset ;; let offset := u8 (offset + 1) in
    b2 <- cs_get buf offset ;; let offset := u8 (offset + 1) in
    b3 <- cs_get buf offset ;; let offset := u8 (offset + 1) in
    b3s <- shl24 E b3 ;;
    let corr_value := s32 (Z.lor (Z.lor (Z.lor b0 (Z.shiftl b1 8)) (Z.shiftl b2 16)) b3s) in
    b4 <- cs_get buf offset ;; let offset := u8 (offset + 1) in
    let token := Z.land b4 15 in
    tok <- get_cs state_token_req ;;
    (if token =? tok then
       emit (KCorrection corr_value) ;;;
       mod_cs (set_state_token_req (Z.land (tok + 1) 15))
     else ret tt) ;;;
    ret (offset, aoff)
  else if cmd =? 2 then
    if size - offset <? 1 then ret (offset, aoff) else
    periodicity <- cs_get buf offset ;; let offset := u8 (offset + 1) in
    aoff <- ans_puts aoff [2] ;;
    aoff <- (if has_periodicity cbs then
               seconds <- periodicity_from_period_id periodicity ;;
               emit (KPeriod seconds) ;;;
               ans_puts aoff [0]
             else ans_puts aoff [1]) ;;
    t <- query (e_unixtime E) KUnixtime ;;
    aoff <- ans_puts aoff (time_bytes (utils_unix_to_gps t)) ;;
    ret (offset, aoff)
  else if cmd =? 3 then
    b <- cs_get buf offset ;; let offset := u8 (offset + 1) in
    mod_cs (set_force_resync_nb_of_rep (Z.land b 7)) ;;;
    n <- get_cs force_resync_nb_of_rep ;;
    (if negb (n =? 0) then emit KResync else ret tt) ;;;
    ret (offset, aoff)
  else ret (offset, aoff).

(** src/ext/clock_sync.c:105-169. The uint8_t offset may wrap (line 161), so
    the fuel is above the number of bytes. Result: ans_buf_offset. *)
Fixpoint cs_loop (E : env) (fuel : nat) (cbs : cs_cbs) (buf : option (list Z)) (size : Z)
    (offset aoff exec_cmd_mask : Z) : C Z :=
  if offset <? size then
    match fuel with
    | O => fail UB_diverge
    | S fuel' =>
        cmd <- cs_get buf offset ;;
        let offset := u8 (offset + 1) in
        cmd_mask <- cmd_bit E cmd ;;
        if negb (Z.land exec_cmd_mask cmd_mask =? 0) then ret aoff else
        let exec_cmd_mask := u8 (Z.lor exec_cmd_mask cmd_mask) in
        '(offset, aoff) <- cs_command E cbs buf size cmd offset aoff ;;
        cs_loop E fuel' cbs buf size offset aoff exec_cmd_mask
    end
  else ret aoff.

(** src/ext/clock_sync.c:93-173 *)
Definition handle_answ (E : env) (buf : option (list Z)) (size : Z) : C unit :=
  c <- get_cs cs_callbacks ;;
  match c with
  | None => ret tt
  | Some cbs =>
      aoff <- cs_loop E 600 cbs buf size 0 0 0 ;;
      mod_cs (set_ans_buf_data_size aoff) ;;;
      mod_cs (set_ans_pending (negb (aoff =? 0)))
  end.

(** src/ext/clock_sync.c:175-182 *)
Definition uwan_clock_sync_init (cbs : option cs_cbs) : C unit :=
  mod_cs (set_cs_callbacks cbs) ;;;
  mod_cs (set_state_token_req 0) ;;;
  mod_cs (set_app_time_req_pending false) ;;;
  mod_cs (set_ans_pending false) ;;;
  mod_cs (set_ans_buf_data_size 0).

(** src/ext/clock_sync.c:184-201; [buf] is the object pkt->data points to,
    which may extend past the pkt->size bytes of the message. *)
Definition uwan_clock_sync_handle_time_answ (E : env) (e : err) (buf : option (list Z))
    (size port : Z) : C unit :=
  if negb (is_ERR_NO e) then ret tt else
  mod_cs (set_app_time_req_pending false) ;;;
  mod_cs (set_ans_pending false) ;;;
  if negb (size =? 0) && (port =? CS_PORT) then handle_answ E buf size else ret tt.

(** rq_buf[offset++] = b ... on the local uint8_t rq_buf[32]; the list holds the
    bytes written so far, its length is [offset]. *)
Fixpoint rq_puts (rq : list Z) (bs : list Z) : C (list Z) :=
  match bs with
  | [] => ret rq
  | b :: bs' => if len rq <? 32 then rq_puts (rq ++ [b]) bs' else fail UB_oob
  end.

(** src/ext/clock_sync.c:203-237 *)
Definition uwan_clock_sync_send_time_req (E : env) (ans_required : bool) : C err :=
  c <- get_cs cs_callbacks ;;
  match c with
  | None => ret ERR_STATE
  | Some _ =>
      pend <- get_cs ans_pending ;;
      n <- get_cs ans_buf_data_size ;;
      a <- get_cs ans_buf ;;
      rq <- (if (pend : bool) then
               if (n <=? 32) && (n <=? len a) then ret (firstn (Z.to_nat n) a) else fail UB_oob
             else ret []) ;;
      mod_cs (set_app_time_req_pending true) ;;;
      rq <- (if 32 - len rq <? 6 then
               mod_cs (set_ans_pending false) ;;; ret []
             else ret rq) ;;
      t <- query (e_unixtime E) KUnixtime ;;
      tok <- get_cs state_token_req ;;
      rq <- rq_puts rq ([1] ++ time_bytes (utils_unix_to_gps t) ++
                        [u8 (Z.lor tok (Z.shiftl (b2z ans_required) 4))]) ;;
      uwan_send_frame E CS_PORT rq (len rq) false
  end.

(** src/ext/clock_sync.c:239-242 *)
Definition uwan_clock_sync_is_answ_pending : C bool := get_cs ans_pending.

(** src/ext/clock_sync.c:244-251 *)
Definition uwan_clock_sync_send_answ (E : env) : C err :=
  pend <- get_cs ans_pending ;;
  if negb pend then ret ERR_STATE else
  a <- get_cs ans_buf ;;
  n <- get_cs ans_buf_data_size ;;
  uwan_send_frame E CS_PORT a n false.
