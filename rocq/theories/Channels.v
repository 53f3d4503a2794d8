(** Channels.v -- src/utils.c, src/channels.c, src/region/*.c and the
    validators and window setters of src/stack.c they depend on. *)
From Verif Require Export Types.

(** *** src/utils.c *)

(** src/utils.c:31-34 *)
Definition utils_random_init (seed : Z) : C unit := emit (LSrand seed).

(** src/utils.c:36-39; [rand()] is an int converted to uint32_t by [%]. *)
Definition utils_get_random (E : env) (max : Z) : C Z :=
  r <- query (e_rand E) LRand ;;
  if max =? 0 then fail UB_div else ret (u32 r mod max).

(** src/utils.c:28-29, 41-46 *)
Definition utils_unix_to_gps (timestamp : Z) : Z :=
  let gps_time := u32 (timestamp - 315964800) in
  u32 (gps_time + 18).

(** src/utils.c:48-53 *)
Definition utils_gps_to_unix (timestamp : Z) : Z :=
  let unix_time := u32 (timestamp + 315964800) in
  u32 (unix_time - 18).

(** *** Validators of src/stack.c *)

(** src/stack.c:779-782; the parameter is uint8_t, so callers truncate. *)
Definition is_valid_dr (dr : Z) : bool := u8 dr <? DR_COUNT.

(** src/stack.c:784-787 *)
Definition is_valid_frequency (freq : Z) : bool :=
  (FREQ_MIN <=? freq) && (freq <=? FREQ_MAX).

(** *** src/channels.c *)

Definition MAX_CHANNELS := 16. (* src/channels.c:34 *)

(** src/utils.h:37 BIT_IS_SET(uw_channels_mask, i) *)
Definition bit_is_set (i : Z) : C bool :=
  m <- get_ch uw_channels_mask ;;
  b <- arr_get m (i / 8) ;;
  ret (negb (Z.land b (Z.shiftl 1 (i mod 8)) =? 0)).

(** src/utils.h:38 BIT_SET(uw_channels_mask, i) *)
Definition bit_set (i : Z) : C unit :=
  m <- get_ch uw_channels_mask ;;
  b <- arr_get m (i / 8) ;;
  m' <- arr_set m (i / 8) (u8 (Z.lor b (Z.shiftl 1 (i mod 8)))) ;;
  mod_ch (set_uw_channels_mask m').

(** src/utils.h:39 BIT_CLEAR(uw_channels_mask, i) *)
Definition bit_clear (i : Z) : C unit :=
  m <- get_ch uw_channels_mask ;;
  b <- arr_get m (i / 8) ;;
  m' <- arr_set m (i / 8) (u8 (Z.land b (Z.lnot (Z.shiftl 1 (i mod 8))))) ;;
  mod_ch (set_uw_channels_mask m').

(** src/channels.c:40-44; the frequencies are not cleared. *)
Definition channels_init : C unit :=
  mod_ch (set_uw_channels_mask (zeros 2)) ;;;
  mod_ch (set_uw_channels_max_count 0).

(** src/channels.c:56-60, the do-while loop. The fuel is the number of
    uint8_t values; running out of it means the C loop does not terminate. *)
Fixpoint get_next_loop (fuel : nat) (start_ch ch : Z) : C Z :=
  match fuel with
  | O => fail UB_diverge
  | S fuel' =>
      b <- bit_is_set ch ;;
      if b then
        cs <- get_ch uw_channels ;; arr_get cs ch
      else
        max <- get_ch uw_channels_max_count ;;
        if max =? 0 then fail UB_div else
        let ch' := u8 ((ch + 1) mod max) in
        if negb (start_ch =? ch') then get_next_loop fuel' start_ch ch' else ret 0
  end.

(** src/channels.c:46-63 *)
Definition channels_get_next (E : env) : C Z :=
  max <- get_ch uw_channels_max_count ;;
  if max =? 0 then ret 0 else
  r <- utils_get_random E max ;;
  let start_ch := u8 r in
  get_next_loop 256 start_ch start_ch.

(** src/utils.h:41 *)
Definition MAX (x y : Z) : Z := if x <? y then y else x.

(** src/channels.c:65-73, for (i = 0; i < MAX_CHANNELS; i++) *)
Fixpoint channels_enable_all_loop (n : nat) (i : Z) : C unit :=
  match n with
  | O => ret tt
  | S n' =>
      cs <- get_ch uw_channels ;;
      f <- arr_get cs i ;;
      (if negb (f =? 0) then
         mx <- get_ch uw_channels_max_count ;;
         mod_ch (set_uw_channels_max_count (u8 (MAX mx (i + 1)))) ;;;
         bit_set i
       else ret tt) ;;;
      channels_enable_all_loop n' (i + 1)
  end.
Definition channels_enable_all : C unit := channels_enable_all_loop 16 0.

(** src/channels.c:75-81 *)
Definition channel_is_exist (index : Z) : C bool :=
  if MAX_CHANNELS <=? index then ret false else
  cs <- get_ch uw_channels ;;
  f <- arr_get cs index ;;
  ret (negb (f =? 0)).

(** src/channels.c:98-101, for (i = 0; i < index; i++) *)
Fixpoint recompute_max (n : nat) (i : Z) : C unit :=
  match n with
  | O => ret tt
  | S n' =>
      b <- bit_is_set i ;;
      (if b then mod_ch (set_uw_channels_max_count (u8 (i + 1))) else ret tt) ;;;
      recompute_max n' (i + 1)
  end.

(** src/channels.c:83-106 *)
Definition uwan_enable_channel (index : Z) (enable : bool) : C err :=
  if MAX_CHANNELS <=? index then ret ERR_CHANNEL else
  if enable then
    cs <- get_ch uw_channels ;;
    f <- arr_get cs index ;;
    if f =? 0 then ret ERR_CHANNEL else
    mx <- get_ch uw_channels_max_count ;;
    mod_ch (set_uw_channels_max_count (u8 (MAX mx (index + 1)))) ;;;
    bit_set index ;;;
    ret ERR_NO
  else
    bit_clear index ;;;
    mx <- get_ch uw_channels_max_count ;;
    (if mx =? index + 1 then recompute_max (Z.to_nat index) 0 else ret tt) ;;;
    ret ERR_NO.

(** src/channels.c:108-120 *)
Definition uwan_set_channel (index frequency : Z) : C err :=
  if MAX_CHANNELS <=? index then ret ERR_CHANNEL else
  if negb (is_valid_frequency frequency) then ret ERR_FREQUENCY else
  cs <- get_ch uw_channels ;;
  cs' <- arr_set cs index frequency ;;
  mod_ch (set_uw_channels cs') ;;;
  uwan_enable_channel index true ;;;
  ret ERR_NO.

(** *** Window setters of src/stack.c *)

(** src/stack.c:564-576 *)
Definition uwan_set_rx2 (frequency dr : Z) : C err :=
  if negb (is_valid_dr dr) then ret ERR_DATARATE else
  if negb (is_valid_frequency frequency) then ret ERR_FREQUENCY else
  mod_stk (set_uw_rx2_frequency frequency) ;;;
  mod_stk (set_uw_rx2_dr dr) ;;;
  ret ERR_NO.

(** src/stack.c:759-767 *)
Definition uwan_set_rx1_dr_offset (rx1_dr_offset : Z) : C bool :=
  if is_valid_dr rx1_dr_offset then
    mod_stk (set_uw_rx1_offset rx1_dr_offset) ;;; ret true
  else ret false.

(** src/stack.c:769-777 *)
Definition uwan_set_rx1_delay (delay : Z) : C bool :=
  if (1 <=? delay) && (delay <=? 15) then
    mod_stk (set_default_rx1_delay (u32 (delay * 1000))) ;;; ret true
  else ret false.

(** *** src/region/*.c *)

Definition LORAWAN_CFLIST_SIZE := 16. (* include/uwan/stack.h:48 *)

(** src/region/common.c:40-46; [cflist] is the advancing pointer, here the
    remaining bytes of the list. *)
Fixpoint cflist_loop (n : nat) (idx ch_first : Z) (cflist : list Z) (off : Z) : C unit :=
  match n with
  | O => ret tt
  | S n' =>
      b0 <- arr_get cflist (off + 0) ;;
      b1 <- arr_get cflist (off + 1) ;;
      b2 <- arr_get cflist (off + 2) ;;
      let freq := Z.lor (Z.lor b0 (Z.shiftl b1 8)) (Z.shiftl b2 16) in
      (if freq =? 0 then uwan_enable_channel (u8 (idx + ch_first)) false
       else uwan_set_channel (u8 (idx + ch_first)) (u32 (freq * 100))) ;;;
      cflist_loop n' (idx + 1) ch_first cflist (off + 3)
  end.

(** src/region/common.c:33-47 *)
Definition region_86x_handle_cflist (cflist : list Z) (ch_first : Z) : C unit :=
  cflist_type <- arr_get cflist (LORAWAN_CFLIST_SIZE - 1) ;;
  if negb (cflist_type =? 0) then ret tt else
  cflist_loop 5 0 ch_first cflist 0.

(** src/region/common.c:54-66; the result is the early [return false]. *)
Fixpoint ch_mask_loop (n : nat) (i : Z) (ch_mask : Z) (dry_run : bool) : C bool :=
  match n with
  | O => ret true
  | S n' =>
      let enable := negb (Z.land ch_mask (Z.shiftl 1 i) =? 0) in
      if dry_run then
        if enable then
          ex <- channel_is_exist i ;;
          if negb ex then ret false else ch_mask_loop n' (i + 1) ch_mask dry_run
        else ch_mask_loop n' (i + 1) ch_mask dry_run
      else
        uwan_enable_channel i enable ;;;
        ch_mask_loop n' (i + 1) ch_mask dry_run
  end.

(** src/region/common.c:49-76 *)
Definition region_86x_handle_adr_ch_mask (ch_mask ch_mask_cntl : Z) (dry_run : bool) : C bool :=
  if ch_mask_cntl =? 0 then ch_mask_loop 16 0 ch_mask dry_run
  else if ch_mask_cntl =? 6 then
    (if negb dry_run then channels_enable_all else ret tt) ;;; ret true
  else ret false.

(** src/region/eu868.c:39-47 *)
Definition eu868_init : C unit :=
  uwan_set_channel 0 868100000 ;;;
  uwan_set_channel 1 868300000 ;;;
  uwan_set_channel 2 868500000 ;;;
  uwan_set_rx1_delay 1 ;;;
  uwan_set_rx1_dr_offset 0 ;;;
  uwan_set_rx2 868100000 DR_0 ;;;
  ret tt.

(** src/region/ru864.c:39-46 *)
Definition ru864_init : C unit :=
  uwan_set_channel 0 868900000 ;;;
  uwan_set_channel 1 869100000 ;;;
  uwan_set_rx1_delay 1 ;;;
  uwan_set_rx1_dr_offset 0 ;;;
  uwan_set_rx2 869100000 DR_0 ;;;
  ret tt.

(** The region structs: src/region/eu868.c:28, 33-37, 49-52 and
    src/region/ru864.c:28, 33-37, 48-51. *)
Definition region_init (r : region) : C unit :=
  match r with EU868 => eu868_init | RU864 => ru864_init end.
Definition region_handle_cflist (r : region) (cflist : list Z) : C unit :=
  match r with
  | EU868 => region_86x_handle_cflist cflist 3
  | RU864 => region_86x_handle_cflist cflist 2
  end.
Definition region_handle_adr_ch_mask (r : region) := region_86x_handle_adr_ch_mask.
