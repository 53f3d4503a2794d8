(** Preempt2.v -- settings that are interrupted.

    As Preempt.v, for uwan_init, uwan_set_otaa_keys, uwan_set_session, uwan_set_rx2,
    uwan_enable_channel, uwan_set_channel, uwan_set_nb_trans, uwan_set_tx_power and
    uwan_adr_setup_ack: radio interrupts and timers
    strike between the C statements of these functions. Not modelled are strikes inside a
    statement, inside the functions they call, and inside the loop of uwan_enable_channel. *)
From Verif Require Export Preempt.
Open Scope m_scope.

(** src/stack.c:513-534. Between the three pointer assignments nothing is modelled: the
    pointers are those of before, or one of them is new. *)
Definition uwan_init_isr (E : env) (I : strikes) (r : region) : C unit :=
  mod_stk (set_uw_state IDLE) ;;;
  isr E I 0 ;;;
  mod_stk (set_uw_region (Some r)) ;;;
  isr E I 1 ;;;
  mod_ses (fun _ => session0) ;;;
  isr E I 2 ;;;
  emit RSetHandler ;;;
  isr E I 3 ;;;
  mac_init ;;;
  isr E I 4 ;;;
  channels_init ;;;
  isr E I 5 ;;;
  region_init r ;;;
  isr E I 6 ;;;
  seed <- query (e_radio_rand E) RRand ;;
  isr E I 7 ;;;
  utils_random_init seed ;;;
  isr E I 8 ;;;
  mod_params (fun p => Mk_params (p_sf p) (p_bw p) CR_4_5 8 true (p_inverted_iq p) false).

(** src/stack.c:536-542 *)
Definition uwan_set_otaa_keys_isr (E : env) (I : strikes) (dev_eui app_eui app_key : list Z) : C unit :=
  a <- get_stk uw_dev_eui ;;
  a' <- arr_memcpy a 0 dev_eui 8 ;;
  mod_stk (set_uw_dev_eui a') ;;;
  isr E I 0 ;;;
  b <- get_stk uw_app_eui ;;
  b' <- arr_memcpy b 0 app_eui 8 ;;
  mod_stk (set_uw_app_eui b') ;;;
  isr E I 1 ;;;
  k <- get_stk uw_app_key ;;
  k' <- arr_memcpy k 0 app_key 16 ;;
  mod_stk (set_uw_app_key k').

(** src/stack.c:544-557 *)
Definition uwan_set_session_isr (E : env) (I : strikes) (addr cnt_up cnt_down : Z) (nwk app : list Z) : C unit :=
  mod_ses (set_dev_addr addr) ;;;
  isr E I 0 ;;;
  mod_ses (set_f_cnt_up cnt_up) ;;;
  isr E I 1 ;;;
  mod_ses (set_f_cnt_down cnt_down) ;;;
  isr E I 2 ;;;
  mod_ses (set_ack_required false) ;;;
  isr E I 3 ;;;
  d <- get_stk default_dr ;;
  mod_ses (set_ses_dr d) ;;;
  isr E I 4 ;;;
  k1 <- get_ses nwk_s_key ;;
  k1' <- arr_memcpy k1 0 nwk 16 ;;
  mod_ses (set_nwk_s_key k1') ;;;
  isr E I 5 ;;;
  k2 <- get_ses app_s_key ;;
  k2' <- arr_memcpy k2 0 app 16 ;;
  mod_ses (set_app_s_key k2') ;;;
  isr E I 6 ;;;
  mod_ses (set_is_joined true).

(** src/stack.c:564-576 *)
Definition uwan_set_rx2_isr (E : env) (I : strikes) (frequency dr : Z) : C err :=
  if negb (is_valid_dr dr) then ret ERR_DATARATE else
  if negb (is_valid_frequency frequency) then ret ERR_FREQUENCY else
  mod_stk (set_uw_rx2_frequency frequency) ;;;
  isr E I 0 ;;;
  mod_stk (set_uw_rx2_dr dr) ;;;
  ret ERR_NO.

(** src/channels.c:83-106 *)
Definition uwan_enable_channel_isr (E : env) (I : strikes) (index : Z) (enable : bool) : C err :=
  if MAX_CHANNELS <=? index then ret ERR_CHANNEL else
  if enable then
    cs <- get_ch uw_channels ;;
    f <- arr_get cs index ;;
    if f =? 0 then ret ERR_CHANNEL else
    mx <- get_ch uw_channels_max_count ;;
    mod_ch (set_uw_channels_max_count (u8 (MAX mx (index + 1)))) ;;;
    isr E I 0 ;;;
    bit_set index ;;;
    ret ERR_NO
  else
    bit_clear index ;;;
    isr E I 0 ;;;
    mx <- get_ch uw_channels_max_count ;;
    (if mx =? index + 1 then recompute_max (Z.to_nat index) 0 else ret tt) ;;;
    ret ERR_NO.

(** src/channels.c:108-120 *)
Definition uwan_set_channel_isr (E : env) (I : strikes) (index frequency : Z) : C err :=
  if MAX_CHANNELS <=? index then ret ERR_CHANNEL else
  if negb (is_valid_frequency frequency) then ret ERR_FREQUENCY else
  cs <- get_ch uw_channels ;;
  cs' <- arr_set cs index frequency ;;
  mod_ch (set_uw_channels cs') ;;;
  isr E I 0 ;;;
  uwan_enable_channel index true ;;;
  ret ERR_NO.

(** src/stack.c:734-742 *)
Definition uwan_set_nb_trans_isr (E : env) (I : strikes) (nb_trans : Z) : C bool :=
  ok <- set_nb_trans nb_trans ;;
  if (ok : bool) then isr E I 0 ;;; mod_stk (set_default_nb_trans nb_trans) ;;; ret true else ret false.

(** src/stack.c:749-757 *)
Definition uwan_set_tx_power_isr (E : env) (I : strikes) (tx_power : Z) : C bool :=
  ok <- set_tx_power tx_power ;;
  if (ok : bool) then isr E I 0 ;;; mod_stk (set_default_tx_power tx_power) ;;; ret true else ret false.

(** src/adr.c:64-68 *)
Definition uwan_adr_setup_ack_isr (E : env) (I : strikes) (limit delay : Z) : C unit :=
  mod_adr (set_ack_limit limit) ;;;
  isr E I 0 ;;;
  mod_adr (set_ack_delay delay).

(** One setting with its interrupts, as [step_isr]. Other calls are not interrupted. *)
Definition call_set_isr (E : env) (I : strikes) (o : op) : C val :=
  match o with
  | OInit r => as_unit (uwan_init_isr E I r)
  | OSetOtaa d a k => as_unit (uwan_set_otaa_keys_isr E I d a k)
  | OSetSession a u d n p => as_unit (uwan_set_session_isr E I a u d n p)
  | OSetRx2 f d => as_err (uwan_set_rx2_isr E I f d)
  | OEnableChannel i b => as_err (uwan_enable_channel_isr E I i b)
  | OSetChannel i f => as_err (uwan_set_channel_isr E I i f)
  | OSetNb n => as_bool (uwan_set_nb_trans_isr E I n)
  | OSetTxp p => as_bool (uwan_set_tx_power_isr E I p)
  | OAdrSetup l d => as_unit (uwan_adr_setup_ack_isr E I l d)
  | _ => call E o
  end.
Definition step_set_isr (E : env) (I : strikes) (w : world) (o : op) : option (val * list ev * world) :=
  match call_set_isr E I o (w_hist w) (w_st w) with
  | Undef _ => None
  | Ok (v, s', es) => Some (v, es, Mk_world s' (w_hist w ++ es))
  end.
