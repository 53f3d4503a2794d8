(** Sx127x.v -- src/device/sx127x.c *)
From Verif Require Export Hal.

(** src/device/sx127x.c:68-71; hal = None is NULL. *)
Record d127 := Mk_d127 {
  a_hal : option hal_opts;
  a_rssi_offset : Z;   (* int16_t *)
  a_handler : bool     (* user_evt_handler != NULL *)
}.
Definition d127_0 : d127 := Mk_d127 None 0 false.
Definition D127 (A : Type) : Type := M d127 hev A.

Section Driver.
Context (H : henv).

(** every function dereferences [hal] *)
Definition deref : D127 hal_opts :=
  h <- gets a_hal ;; match h with None => fail UB_null | Some o => ret o end.

(** src/device/sx127x.c:89-95 *)
Definition write_reg (addr data : Z) : D127 unit :=
  deref ;;;
  emit (HSelect true) ;;;
  xfer H (Z.lor addr 128) ;;;
  xfer H data ;;;
  emit (HSelect false).

(** src/device/sx127x.c:97-104 and 118-126 (write_array, same bus traffic) *)
Definition write_regs (addr : Z) (data : list Z) : D127 unit :=
  deref ;;;
  emit (HSelect true) ;;;
  xfer H (Z.lor addr 128) ;;;
  xfer_out H data ;;;
  emit (HSelect false).

(** src/device/sx127x.c:106-116 *)
Definition read_reg (addr : Z) : D127 Z :=
  deref ;;;
  emit (HSelect true) ;;;
  xfer H addr ;;;
  data <- xfer H 0 ;;
  emit (HSelect false) ;;;
  ret data.

(** src/device/sx127x.c:128-136; result: the bytes stored in buf *)
Definition read_array (addr size : Z) : D127 (list Z) :=
  deref ;;;
  emit (HSelect true) ;;;
  xfer H addr ;;;
  bs <- xfer_in H 0 (Z.to_nat size) ;;
  emit (HSelect false) ;;;
  ret bs.

(** register addresses, include/uwan/device/sx127x.h:33-87 *)
Definition REG_FIFO := 0.
Definition REG_OP_MODE := 1.
Definition REG_FRF_MSB := 6.
Definition REG_PA_CONFIG := 9.
Definition REG_PA_RAMP := 10.
Definition REG_LNA := 12.
Definition REG_FIFO_ADDR_PTR := 13.
Definition REG_FIFO_TX_BASE_ADDR := 14.
Definition REG_FIFO_RX_CURRENT_ADDR := 16.
Definition REG_IRQ_FLAGS_MASK := 17.
Definition REG_IRQ_FLAGS := 18.
Definition REG_FIFO_RX_BYTES_NB := 19.
Definition REG_PACKET_SNR := 25.
Definition REG_PACKET_RSSI := 26.
Definition REG_MODEM_CONFIG1 := 29.
Definition REG_MODEM_CONFIG2 := 30.
Definition REG_SYMB_TIMEOUT_LSB := 31.
Definition REG_PAYLOAD_LENGTH := 34.
Definition REG_MAX_PAYLOAD_LENGTH := 35.
Definition REG_MODEM_CONFIG3 := 38.
Definition REG_RSSI_WIDEBAND := 44.
Definition REG_INVERT_IQ := 51.
Definition REG_SYNC_WORD := 57.
Definition REG_IMAGE_CAL := 59.
Definition REG_INVERT_IQ2 := 59.
Definition REG_DIO_MAPPING1 := 64.
Definition REG_VERSION := 66.

(** include/uwan/device/sx127x.h:97-142 *)
Definition MODE_SLEEP := 0.
Definition MODE_STDBY := 1.
Definition MODE_TX := 3.
Definition MODE_RX_CONTINUOUS := 5.
Definition MODE_RX_SINGLE := 6.

(** src/device/sx127x.c:42-65 with the values of include/uwan/device/sx127x.h *)
Definition sf_table : list Z := [96; 112; 128; 144; 160; 176; 192].
Definition bw_table : list Z := [112; 128; 144].
Definition cr_table : list Z := [2; 4; 6; 8].

(** src/device/sx127x.c:138-143 *)
Definition set_op_mode (mode : Z) : D127 unit :=
  op_mode <- read_reg REG_OP_MODE ;;
  write_reg REG_OP_MODE (u8 (Z.lor (Z.land op_mode (Z.lnot 7)) mode)).

(** src/device/sx127x.c:145-154 *)
Definition lora_set_modem_conf1 (bw cr : Z) (imp_header : bool) : D127 unit :=
  let conf := Z.lor bw cr in
  let conf := if imp_header then Z.lor conf 1 else conf in
  write_reg REG_MODEM_CONFIG1 conf.

(** src/device/sx127x.c:156-168 *)
Definition lora_set_modem_conf2 (sf : Z) (crc_on tx_cont : bool) : D127 unit :=
  let conf := sf in
  let conf := if crc_on then Z.lor conf 4 else conf in
  let conf := if tx_cont then Z.lor conf 8 else conf in
  write_reg REG_MODEM_CONFIG2 conf.

(** src/device/sx127x.c:170-183 *)
Definition lora_set_modem_conf3 (low_dr_opti agc_auto_on : bool) : D127 unit :=
  let conf := 0 in
  let conf := if low_dr_opti then Z.lor conf 8 else conf in
  let conf := if agc_auto_on then Z.lor conf 4 else conf in
  write_reg REG_MODEM_CONFIG3 conf.

(** src/device/sx127x.c:185-195 *)
Definition set_inverted_iq (inverted_iq : bool) : D127 unit :=
  if inverted_iq then write_reg REG_INVERT_IQ 102 ;;; write_reg REG_INVERT_IQ2 25
  else write_reg REG_INVERT_IQ 39 ;;; write_reg REG_INVERT_IQ2 29.

(** src/device/sx127x.c:260-270 *)
Definition sx127x_set_freq (freq : Z) : D127 unit :=
  let rf := Z.shiftl freq 19 / 32000000 in
  write_regs REG_FRF_MSB
    [Z.land (Z.shiftr rf 16) 255; Z.land (Z.shiftr rf 8) 255; Z.land rf 255].

(** src/device/sx127x.c:209-216: the do-while loop; result: timeout != 0 *)
Fixpoint calib_loop (fuel : nat) (timeout : Z) : D127 bool :=
  match fuel with
  | O => fail UB_diverge
  | S fuel' =>
      let timeout := u8 (timeout - 1) in
      emit (HDelay 1000) ;;;
      value <- read_reg REG_IMAGE_CAL ;;
      if negb (timeout =? 0) && negb (Z.land value 32 =? 0)
      then calib_loop fuel' timeout else ret (negb (timeout =? 0))
  end.

(** src/device/sx127x.c:197-217 *)
Definition rx_calibartion : D127 bool :=
  sx127x_set_freq 868800000 ;;;
  value <- read_reg REG_IMAGE_CAL ;;
  write_reg REG_IMAGE_CAL (Z.lor value 64) ;;;
  calib_loop 256 255.

(** src/device/sx127x.c:304-310 *)
Definition sx127x_set_public_network (is_public : bool) : D127 unit :=
  if is_public then write_reg REG_SYNC_WORD 52 else write_reg REG_SYNC_WORD 20.

(** src/device/sx127x.c:219-251; r_hal is required to be non-NULL *)
Definition sx127x_init (o : hal_opts) : D127 bool :=
  modify (fun s => Mk_d127 (Some o) (a_rssi_offset s) (a_handler s)) ;;;
  emit (HReset true) ;;;
  emit (HDelay 150) ;;;
  emit (HReset false) ;;;
  emit (HDelay 6000) ;;;
  when (has_io_deinit o) (emit HIoDeinit) ;;;
  v <- read_reg REG_VERSION ;;
  if negb (v =? 18) then ret false else
  c <- rx_calibartion ;;
  if negb c then ret false else
  write_reg REG_OP_MODE MODE_SLEEP ;;;
  write_reg REG_OP_MODE (Z.lor 128 MODE_SLEEP) ;;;
  sx127x_set_public_network true ;;;
  write_reg REG_PA_RAMP 8 ;;;
  write_reg REG_LNA (Z.lor 32 3) ;;;
  ret true.

(** src/device/sx127x.c:253-258 *)
Definition sx127x_sleep : D127 unit :=
  set_op_mode MODE_SLEEP ;;;
  o <- deref ;;
  when (has_io_deinit o) (emit HIoDeinit).

(** src/device/sx127x.c:272-302; [power] is int8_t, the register byte uint8_t *)
Definition sx127x_set_power (power : Z) : D127 bool :=
  if (power <? -4) || (17 <? power) then ret false else
  (if power <=? 14 then
     let '(pmax, power) := if power <? 0 then (0, s8 (power + 4)) else (7, power) in
     let pa_conf := Z.lor (Z.lor 0 (Z.shiftl pmax 4)) (Z.land (u8 power) 15) in
     modify (fun s => Mk_d127 (a_hal s) (-164) (a_handler s)) ;;;
     write_reg REG_PA_CONFIG pa_conf
   else
     let pa_conf := Z.lor 128 (Z.land (u8 (power - 2)) 15) in
     modify (fun s => Mk_d127 (a_hal s) (-157) (a_handler s)) ;;;
     write_reg REG_PA_CONFIG pa_conf) ;;;
  ret true.

(** src/device/sx127x.c:312-327 *)
Definition sx127x_setup (p : params) : D127 unit :=
  set_op_mode MODE_STDBY ;;;
  bw <- arr_get bw_table (p_bw p) ;;
  cr <- arr_get cr_table (p_cr p) ;;
  lora_set_modem_conf1 bw cr (p_implicit_header p) ;;;
  sf <- arr_get sf_table (p_sf p) ;;
  lora_set_modem_conf2 sf (p_crc_on p) false ;;;
  let low_dr_opti := SF_11 <=? p_sf p in
  lora_set_modem_conf3 low_dr_opti true ;;;
  set_inverted_iq (p_inverted_iq p) ;;;
  o <- deref ;;
  when (has_io_init o) (emit HIoInit).

(** src/device/sx127x.c:329-344 *)
Definition sx127x_tx (buf : list Z) : D127 unit :=
  write_reg REG_FIFO_TX_BASE_ADDR 0 ;;;
  write_reg REG_FIFO_ADDR_PTR 0 ;;;
  write_regs REG_FIFO buf ;;;
  write_reg REG_PAYLOAD_LENGTH (len buf) ;;;
  write_reg REG_IRQ_FLAGS_MASK (u8 (Z.lnot 8)) ;;;
  write_reg REG_DIO_MAPPING1 64 ;;;
  o <- deref ;;
  when (has_ant o) (emit (HAnt false)) ;;;
  set_op_mode MODE_TX.

(** src/device/sx127x.c:346-378 *)
Definition sx127x_rx (n symb_timeout timeout : Z) : D127 unit :=
  conf2 <- read_reg REG_MODEM_CONFIG2 ;;
  let conf2 := Z.land conf2 (Z.lnot 3) in
  let conf2 := Z.lor conf2 (Z.land (Z.shiftr symb_timeout 8) 3) in
  write_reg REG_MODEM_CONFIG2 conf2 ;;;
  write_reg REG_SYMB_TIMEOUT_LSB (Z.land symb_timeout 255) ;;;
  write_reg REG_FIFO_TX_BASE_ADDR 0 ;;;
  write_reg REG_FIFO_ADDR_PTR 0 ;;;
  write_reg REG_MAX_PAYLOAD_LENGTH n ;;;
  write_reg 54 2 ;;;
  write_reg 58 100 ;;;
  write_reg REG_IRQ_FLAGS_MASK (u8 (Z.lnot (Z.lor (Z.lor 128 64) 32))) ;;;
  write_reg REG_DIO_MAPPING1 (Z.lor (Z.lor 0 0) 2) ;;;
  o <- deref ;;
  when (has_ant o) (emit (HAnt true)) ;;;
  if timeout =? 0 then set_op_mode MODE_RX_SINGLE else set_op_mode MODE_RX_CONTINUOUS.

(** src/device/sx127x.c:380-401. [cap] is pkt->size on entry, the capacity of
    pkt->data; the result holds the bytes stored there and the fields set. *)
Definition sx127x_read_packet (cap : Z) : D127 rxpkt :=
  fifo_ptr <- read_reg REG_FIFO_RX_CURRENT_ADDR ;;
  write_reg REG_FIFO_ADDR_PTR fifo_ptr ;;;
  size <- read_reg REG_FIFO_RX_BYTES_NB ;;
  let size := if cap <? size then cap else size in
  data <- (if 0 <? size then read_array REG_FIFO size else ret []) ;;
  snr_lsb <- read_reg REG_PACKET_SNR ;;
  rssi_lsb <- read_reg REG_PACKET_RSSI ;;
  off <- gets a_rssi_offset ;;
  ret (Mk_rxpkt data (s16 (off + rssi_lsb)) (Z.quot (s8 snr_lsb) 4)).

(** src/device/sx127x.c:411-415, for (i = 0; i < 32; i++) *)
Fixpoint rand_loop (n : nat) (i random : Z) : D127 Z :=
  match n with
  | O => ret random
  | S n' =>
      emit (HDelay 1000) ;;;
      rssi <- read_reg REG_RSSI_WIDEBAND ;;
      (if h_strict_shl H && (i =? 31) && (Z.land rssi 1 =? 1) then fail UB_shift
       else ret tt) ;;;
      rand_loop n' (i + 1) (u32 (Z.lor random (Z.shiftl (Z.land rssi 1) i)))
  end.

(** src/device/sx127x.c:403-419 *)
Definition sx127x_rand : D127 Z :=
  write_reg REG_IRQ_FLAGS_MASK 255 ;;;
  set_op_mode MODE_RX_CONTINUOUS ;;;
  random <- rand_loop 32 0 0 ;;
  set_op_mode MODE_SLEEP ;;;
  ret random.

(** src/device/sx127x.c:421-453 *)
Definition sx127x_irq_handler : D127 Z :=
  flags <- read_reg REG_IRQ_FLAGS ;;
  let '(cflags, result) := (0, 0) in
  let '(cflags, result) :=
    if negb (Z.land flags 8 =? 0) then (Z.lor cflags 8, Z.lor result IRQF_TX_DONE)
    else (cflags, result) in
  let '(cflags, result) :=
    if negb (Z.land flags 64 =? 0) then (Z.lor cflags 64, Z.lor result IRQF_RX_DONE)
    else (cflags, result) in
  let '(cflags, result) :=
    if negb (Z.land flags 128 =? 0) then (Z.lor cflags 128, Z.lor result IRQF_RX_TIMEOUT)
    else (cflags, result) in
  let '(cflags, result) :=
    if negb (Z.land flags 32 =? 0) then (Z.lor cflags 32, Z.lor result IRQF_CRC_ERROR)
    else (cflags, result) in
  write_reg REG_IRQ_FLAGS cflags ;;;
  u <- gets a_handler ;;
  when u (emit (HUser result)) ;;;
  ret result.

(** src/device/sx127x.c:455-458 *)
Definition sx127x_set_evt_handler (non_null : bool) : D127 unit :=
  modify (fun s => Mk_d127 (a_hal s) (a_rssi_offset s) non_null).
End Driver.
