(** Sx126x.v -- src/device/sx126x.c *)
From Verif Require Export Hal.

(** include/uwan/device/sx126x.h:170-176 *)
Record sx126x_opts := Mk_opts {
  is_hp : bool;
  use_dcdc : bool;
  use_tcxo : bool;
  tcxo_timeout : Z; (* uint16_t *)
  tcxo_voltage : Z  (* uint8_t *)
}.

(** src/device/sx126x.c:47-53; None is NULL *)
Record d126 := Mk_d126 {
  b_hal : option hal_opts;
  b_opts : option sx126x_opts;
  b_sleep : bool;
  b_handler : bool;
  b_params : params
}.
Definition d126_0 : d126 := Mk_d126 None None false false params0.
Definition D126 (A : Type) : Type := M d126 hev A.

(** assignments to the file-scope variables *)
Definition set_b_hal v (s : d126) := Mk_d126 v (b_opts s) (b_sleep s) (b_handler s) (b_params s).
Definition set_b_opts v (s : d126) := Mk_d126 (b_hal s) v (b_sleep s) (b_handler s) (b_params s).
Definition set_b_sleep v (s : d126) := Mk_d126 (b_hal s) (b_opts s) v (b_handler s) (b_params s).
Definition set_b_handler v (s : d126) := Mk_d126 (b_hal s) (b_opts s) (b_sleep s) v (b_params s).
Definition set_b_params v (s : d126) := Mk_d126 (b_hal s) (b_opts s) (b_sleep s) (b_handler s) v.

(** command bytes and registers, include/uwan/device/sx126x.h:30-147 *)
Definition CMD_SET_SLEEP := 132.
Definition CMD_SET_STANDBY := 128.
Definition CMD_SET_TX := 131.
Definition CMD_SET_RX := 130.
Definition CMD_SET_REGULATOR_MODE := 150.
Definition CMD_CALIBRATE := 137.
Definition CMD_CALIBRATE_IMAGE := 152.
Definition CMD_SET_PA_CONFIG := 149.
Definition CMD_WRITE_REGISTER := 13.
Definition CMD_READ_REGISTER := 29.
Definition CMD_WRITE_BUFFER := 14.
Definition CMD_READ_BUFFER := 30.
Definition CMD_SET_DIO_IRQ_PARAMS := 8.
Definition CMD_GET_IRQ_STATUS := 18.
Definition CMD_CLEAR_IRQ_STATUS := 2.
Definition CMD_SET_DIO3_AS_TCXO_CTRL := 151.
Definition CMD_SET_RF_FREQUENCY := 134.
Definition CMD_SET_PACKET_TYPE := 138.
Definition CMD_SET_TX_PARAMS := 142.
Definition CMD_SET_MODULATION_PARAMS := 139.
Definition CMD_SET_PACKET_PARAMS := 140.
Definition CMD_SET_BUFFER_BASE_ADDRESS := 143.
Definition CMD_SET_LORA_SYMB_NUM_TIMEOUT := 160.
Definition CMD_GET_STATUS := 192.
Definition CMD_GET_RX_BUFFER_STATUS := 19.
Definition CMD_GET_PACKET_STATUS := 20.
Definition CMD_GET_DEVICE_ERRORS := 23.
Definition CMD_CLEAR_DEVICE_ERRORS := 7.
Definition REG_LORA_SYNC_WORD_MSB := 1856.
Definition REG_RANDOM_NUMBER_GEN_0 := 2073.
Definition REG_OCP := 2279.
Definition REG_XTA_TRIM := 2321.
Definition REG_IQ_POL_FIX := 1846.
Definition REG_TX_CLAMP_CONFIG := 2264.

Section Driver.
Context (H : henv).

Definition deref : D126 hal_opts :=
  h <- gets b_hal ;; match h with None => fail UB_null | Some o => ret o end.

(** src/device/sx126x.c:97-100 *)
Definition wait_busy_on : D126 unit := deref ;;; emit HWaitBusy.

(** src/device/sx126x.c:102-120 *)
Definition check_device : D126 unit :=
  sl <- gets b_sleep ;;
  (if (sl : bool) then
     deref ;;;
     emit (HSelect true) ;;;
     xfer H CMD_GET_STATUS ;;;
     xfer H 0 ;;;
     emit (HSelect false) ;;;
     wait_busy_on ;;;
     emit (HSelect true) ;;;
     xfer H CMD_SET_STANDBY ;;;
     xfer H 0 ;;;
     emit (HSelect false) ;;;
     modify (set_b_sleep false)
   else ret tt) ;;;
  wait_busy_on.

(** addr >> 8, addr & 0xff *)
Definition addr_bytes (addr : Z) : list Z := [Z.shiftr addr 8; Z.land addr 255].

(** src/device/sx126x.c:122-135 *)
Definition read_register (addr : Z) : D126 Z :=
  check_device ;;;
  emit (HSelect true) ;;;
  xfer H CMD_READ_REGISTER ;;;
  xfer_out H (addr_bytes addr) ;;;
  xfer H 255 ;;;
  result <- xfer H 255 ;;
  emit (HSelect false) ;;;
  ret result.

(** src/device/sx126x.c:137-147 *)
Definition write_register (addr value : Z) : D126 unit :=
  check_device ;;;
  emit (HSelect true) ;;;
  xfer H CMD_WRITE_REGISTER ;;;
  xfer_out H (addr_bytes addr) ;;;
  xfer H value ;;;
  emit (HSelect false).

(** src/device/sx126x.c:149-161; result: the bytes stored in buf (the status
    byte is not used by any caller) *)
Definition read_command (cmd : Z) (size : nat) : D126 (list Z) :=
  check_device ;;;
  emit (HSelect true) ;;;
  xfer H cmd ;;;
  xfer H 255 ;;;
  bs <- xfer_in H 255 size ;;
  emit (HSelect false) ;;;
  ret bs.

(** src/device/sx126x.c:163-172 *)
Definition write_command (cmd : Z) (buf : list Z) : D126 unit :=
  check_device ;;;
  emit (HSelect true) ;;;
  xfer H cmd ;;;
  xfer_out H buf ;;;
  emit (HSelect false).

(** src/device/sx126x.c:174-188 *)
Definition read_registers (addr : Z) (count : nat) : D126 (list Z) :=
  check_device ;;;
  emit (HSelect true) ;;;
  xfer H CMD_READ_REGISTER ;;;
  xfer_out H (addr_bytes addr) ;;;
  xfer H 255 ;;;
  bs <- xfer_in H 255 count ;;
  emit (HSelect false) ;;;
  ret bs.

(** src/device/sx126x.c:190-201 *)
Definition write_registers (addr : Z) (values : list Z) : D126 unit :=
  check_device ;;;
  emit (HSelect true) ;;;
  xfer H CMD_WRITE_REGISTER ;;;
  xfer_out H (addr_bytes addr) ;;;
  xfer_out H values ;;;
  emit (HSelect false).

(** src/device/sx126x.c:203-213 *)
Definition write_buffer (offset : Z) (buf : list Z) : D126 unit :=
  check_device ;;;
  emit (HSelect true) ;;;
  xfer H CMD_WRITE_BUFFER ;;;
  xfer H offset ;;;
  xfer_out H buf ;;;
  emit (HSelect false).

(** src/device/sx126x.c:215-228 *)
Definition read_buffer (offset : Z) (size : nat) : D126 (list Z) :=
  check_device ;;;
  emit (HSelect true) ;;;
  xfer H CMD_READ_BUFFER ;;;
  xfer H offset ;;;
  xfer H 255 ;;;
  bs <- xfer_in H 255 size ;;
  emit (HSelect false) ;;;
  ret bs.

(** src/device/sx126x.c:230-241 *)
Definition setup_tcxo (voltage timeout : Z) : D126 unit :=
  let timeout := u32 (Z.shiftl timeout 6) in
  write_command CMD_SET_DIO3_AS_TCXO_CTRL
    [voltage; u8 (Z.shiftr timeout 16); u8 (Z.shiftr timeout 8); u8 timeout] ;;;
  write_register REG_XTA_TRIM 0.

(** src/device/sx126x.c:243-262 *)
Definition set_packet_params (preamb_len : Z) (crc_on inverted_iq implicit_header : bool)
    (n : Z) : D126 unit :=
  reg <- read_register REG_IQ_POL_FIX ;;
  let reg := if inverted_iq then u8 (Z.land reg (Z.lnot 4)) else u8 (Z.lor reg 4) in
  write_register REG_IQ_POL_FIX reg ;;;
  write_command CMD_SET_PACKET_PARAMS
    [u8 (Z.shiftr preamb_len 8); Z.land preamb_len 255; b2z implicit_header; n;
     b2z crc_on; b2z inverted_iq].

(** src/device/sx126x.c:320-330 *)
Definition sx126x_sleep : D126 unit :=
  write_command CMD_SET_SLEEP [4] ;;;
  o <- deref ;;
  when (has_io_deinit o) (emit HIoDeinit) ;;;
  emit (HDelay 1000) ;;;
  modify (set_b_sleep true).

(** src/device/sx126x.c:388-402 *)
Definition sx126x_set_public_network (is_public : bool) : D126 unit :=
  write_registers REG_LORA_SYNC_WORD_MSB (if is_public then [52; 68] else [20; 36]).

(** src/device/sx126x.c:264-318 *)
Definition sx126x_init (r_hal : option hal_opts) (opts : option sx126x_opts) : D126 bool :=
  modify (set_b_hal r_hal) ;;;
  modify (set_b_opts opts) ;;;
  match r_hal, opts with
  | Some o, Some d =>
      emit (HReset true) ;;;
      emit (HDelay 1000) ;;;
      emit (HReset false) ;;;
      emit (HDelay 20000) ;;;
      when (has_io_deinit o) (emit HIoDeinit) ;;;
      modify (set_b_sleep true) ;;;
      write_command CMD_CLEAR_DEVICE_ERRORS [0; 0] ;;;
      when (use_tcxo d) (setup_tcxo (tcxo_voltage d) (tcxo_timeout d)) ;;;
      write_command CMD_CALIBRATE [127] ;;;
      op_error <- read_command CMD_GET_DEVICE_ERRORS 2 ;;
      if negb (forallb (Z.eqb 0) op_error) then ret false else
      write_command CMD_SET_REGULATOR_MODE [b2z (use_dcdc d)] ;;;
      sx126x_sleep ;;;
      write_command CMD_SET_PACKET_TYPE [1] ;;;
      sx126x_set_public_network true ;;;
      let mask := Z.lor (Z.lor (Z.lor 1 2) 64) 512 in
      write_command CMD_SET_DIO_IRQ_PARAMS
        [Z.shiftr mask 8; Z.land mask 255; Z.shiftr mask 8; Z.land mask 255; 0; 0; 0; 0] ;;;
      ret true
  | _, _ => ret false
  end.

(** src/device/sx126x.c:332-345 *)
Definition sx126x_set_freq (freq : Z) : D126 unit :=
  write_command CMD_CALIBRATE_IMAGE [215; 219] ;;;
  let rf_freq := Z.shiftl freq 25 / 32000000 in
  write_command CMD_SET_RF_FREQUENCY
    [Z.land (Z.shiftr rf_freq 24) 255; Z.land (Z.shiftr rf_freq 16) 255;
     Z.land (Z.shiftr rf_freq 8) 255; Z.land rf_freq 255].

(** src/device/sx126x.c:347-386 *)
Definition sx126x_set_power (power : Z) : D126 bool :=
  opts <- gets b_opts ;;
  match opts with
  | None => fail UB_null
  | Some d =>
      let final (pa_conf : list Z) (power : Z) : D126 bool :=
        write_command CMD_SET_PA_CONFIG pa_conf ;;;
        write_command CMD_SET_TX_PARAMS [u8 power; 2] ;;;
        ret true in
      if negb (is_hp d) then
        if (15 <? power) || (power <? -17) then ret false else
        write_register REG_OCP 24 ;;;
        (if power =? 15 then final [6; 0; 1; 1] 14 else final [4; 0; 1; 1] power)
      else
        if (22 <? power) || (power <? -9) then ret false else
        reg <- read_register REG_TX_CLAMP_CONFIG ;;
        write_register REG_TX_CLAMP_CONFIG (Z.lor reg 30) ;;;
        write_register REG_OCP 56 ;;;
        final [4; 7; 0; 1] power
  end.

(** src/device/sx126x.c:72-95 *)
Definition sf_table : list Z := [6; 7; 8; 9; 10; 11; 12].
Definition bw_table : list Z := [4; 5; 6].
Definition cr_table : list Z := [1; 2; 3; 4].

(** src/device/sx126x.c:404-421 *)
Definition sx126x_setup (p : params) : D126 unit :=
  sf <- arr_get sf_table (p_sf p) ;;
  bw <- arr_get bw_table (p_bw p) ;;
  cr <- arr_get cr_table (p_cr p) ;;
  let ldro := if SF_11 <=? p_sf p then 1 else 0 in
  write_command CMD_SET_MODULATION_PARAMS [sf; bw; cr; ldro] ;;;
  modify (set_b_params p) ;;;
  o <- deref ;;
  when (has_io_init o) (emit HIoInit).

(** the first statement of sx126x_tx and sx126x_rx, lines 425-426 and 442-443 *)
Definition apply_packet_params (n : Z) : D126 unit :=
  p <- gets b_params ;;
  set_packet_params (p_preamble_len p) (p_crc_on p) (p_inverted_iq p) (p_implicit_header p) n.

(** src/device/sx126x.c:423-438 *)
Definition sx126x_tx (buf : list Z) : D126 unit :=
  apply_packet_params (len buf) ;;;
  write_command CMD_SET_BUFFER_BASE_ADDRESS [0; 0] ;;;
  write_buffer 0 buf ;;;
  o <- deref ;;
  when (has_ant o) (emit (HAnt false)) ;;;
  write_command CMD_SET_TX [0; 0; 0].

(** src/device/sx126x.c:440-461; line 445 sends the first byte of a uint16_t
    (little-endian host) *)
Definition sx126x_rx (n symb_timeout timeout : Z) : D126 unit :=
  apply_packet_params n ;;;
  write_command CMD_SET_LORA_SYMB_NUM_TIMEOUT [u8 symb_timeout] ;;;
  write_command CMD_SET_BUFFER_BASE_ADDRESS [0; 0] ;;;
  o <- deref ;;
  when (has_ant o) (emit (HAnt true)) ;;;
  let timeout := if negb (timeout =? 0) && negb (timeout =? 16777215)
                 then u32 (Z.shiftl timeout 6) else timeout in
  write_command CMD_SET_RX
    [u8 (Z.shiftr timeout 16); u8 (Z.shiftr timeout 8); u8 timeout].

(** src/device/sx126x.c:463-478; see [sx127x_read_packet] for [cap] *)
Definition sx126x_read_packet (cap : Z) : D126 rxpkt :=
  st <- read_command CMD_GET_RX_BUFFER_STATUS 2 ;;
  n <- arr_get st 0 ;;
  offset <- arr_get st 1 ;;
  let actual_len := if n <? cap then n else cap in
  data <- read_buffer offset (Z.to_nat actual_len) ;;
  ps <- read_command CMD_GET_PACKET_STATUS 3 ;;
  p0 <- arr_get ps 0 ;;
  p1 <- arr_get ps 1 ;;
  ret (Mk_rxpkt data (Z.quot (- p0) 2) (Z.quot (s8 p1) 4)).

(** src/device/sx126x.c:480-489; a little-endian host *)
Definition sx126x_rand : D126 Z :=
  sx126x_rx 255 0 16777215 ;;;
  r <- read_registers REG_RANDOM_NUMBER_GEN_0 4 ;;
  b0 <- arr_get r 0 ;; b1 <- arr_get r 1 ;; b2 <- arr_get r 2 ;; b3 <- arr_get r 3 ;;
  sx126x_sleep ;;;
  ret (b0 + 256 * b1 + 65536 * b2 + 16777216 * b3).

(** src/device/sx126x.c:491-517 *)
Definition sx126x_irq_handler : D126 Z :=
  buf <- read_command CMD_GET_IRQ_STATUS 2 ;;
  write_command CMD_CLEAR_IRQ_STATUS buf ;;;
  b0 <- arr_get buf 0 ;; b1 <- arr_get buf 1 ;;
  let flags := Z.lor (Z.shiftl b0 8) b1 in
  let result := 0 in
  let result := if negb (Z.land flags 1 =? 0) then Z.lor result IRQF_TX_DONE else result in
  let result := if negb (Z.land flags 2 =? 0) then Z.lor result IRQF_RX_DONE else result in
  let result := if negb (Z.land flags 512 =? 0) then Z.lor result IRQF_RX_TIMEOUT else result in
  let result := if negb (Z.land flags 64 =? 0) then Z.lor result IRQF_CRC_ERROR else result in
  u <- gets b_handler ;;
  when u (emit (HUser result)) ;;;
  ret result.

(** src/device/sx126x.c:519-522 *)
Definition sx126x_set_evt_handler (non_null : bool) : D126 unit :=
  modify (set_b_handler non_null).
End Driver.
