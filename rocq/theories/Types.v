(** Types.v -- the types, constants, file-scope variables and external
    interface of the stack (include/uwan/stack.h, src/stack.h, src/stack.c,
    src/adr.c, src/mac.c, src/channels.c, src/ext/clock_sync.c). *)
From Verif Require Export Base.

(** include/uwan/stack.h:87-100 enum uwan_errs *)
Inductive err :=
| ERR_NO | ERR_STATE | ERR_DATARATE | ERR_CHANNEL | ERR_FREQUENCY
| ERR_RX_TIMEOUT | ERR_RX_CRC | ERR_MSG_LEN | ERR_MSG_MHDR | ERR_MSG_MIC
| ERR_DEV_ADDR | ERR_FCNT.

Definition is_ERR_NO (e : err) : bool := match e with ERR_NO => true | _ => false end.

(** src/stack.c:63-69 enum stack_states *)
Inductive stack_state := NOT_INIT | IDLE | TX | RX1 | RX2.

(** include/uwan/stack.h:112-115 enum uwan_timer_ids *)
Inductive timer_id := TIMER_RX1 | TIMER_RX2.

(** include/uwan/stack.h:189-194 struct uwan_region; only the two shipped
    instances are modelled (src/region/eu868.c:33-37, src/region/ru864.c:33-37). *)
Inductive region := EU868 | RU864.

(** include/uwan/stack.h:53-85: enum uwan_sf / uwan_bw / uwan_cr / uwan_dr are
    numbers because the code computes with them and uses them as indices. *)
Definition SF_7 := 1.
Definition SF_8 := 2.
Definition SF_9 := 3.
Definition SF_10 := 4.
Definition SF_11 := 5.
Definition SF_12 := 6.
Definition BW_125 := 0.
Definition CR_4_5 := 0.
Definition DR_0 := 0.
Definition DR_COUNT := 6.

(** include/uwan/stack.h:102-110 enum uwan_mtypes *)
Definition MTYPE_JOIN_REQUEST := 0.
Definition MTYPE_JOIN_ACCEPT := 1.
Definition MTYPE_UNCONF_DATA_UP := 2.
Definition MTYPE_UNCONF_DATA_DOWN := 3.
Definition MTYPE_CONF_DATA_UP := 4.
Definition MTYPE_CONF_DATA_DOWN := 5.

(** include/uwan/stack.h:117-122 enum radio_irq_flags *)
Definition IRQF_RX_TIMEOUT := 1.
Definition IRQF_RX_DONE := 2.
Definition IRQF_TX_DONE := 4.
Definition IRQF_CRC_ERROR := 8.

(** include/uwan/stack.h:143-151 struct uwan_packet_params *)
Record params := Mk_params {
  p_sf : Z;
  p_bw : Z;
  p_cr : Z;
  p_preamble_len : Z;
  p_crc_on : bool;
  p_inverted_iq : bool;
  p_implicit_header : bool
}.

(** What radio->read_packet() delivers (include/uwan/stack.h:135-141). *)
Record rxpkt := Mk_rxpkt { rx_data : list Z; rx_rssi : Z; rx_snr : Z }.

(** struct uwan_dl_packet as the downlink callback sees it
    (include/uwan/stack.h:135-141): [v_data = None] is a NULL pointer,
    [Some l] the [v_size] bytes behind the pointer. *)
Record dlview := Mk_dlview {
  v_data : option (list Z);
  v_size : Z;
  v_port : Z;
  v_rssi : Z;
  v_snr : Z
}.

(** include/uwan/stack.h:153-158 struct uwan_mac_callbacks: which of the
    optional pointers are non-NULL. *)
Record mac_callbacks := Mk_mac_callbacks {
  has_get_battery_level : bool;
  has_link_check_result : bool;
  has_get_device_time : bool;
  has_device_time_result : bool
}.

(** include/uwan/ext/clock_sync.h:32-37: the three required pointers are
    assumed non-NULL, the optional one is a flag. *)
Record cs_cbs := Mk_cs_cbs { has_periodicity : bool }.

(** External calls: everything the stack does to the outside world.
    Radio driver (include/uwan/stack.h:160-173), stack HAL (175-187), MAC
    callbacks (153-158), clock-sync callbacks, libc srand/rand. Values returned
    by the outside world are recorded in the event. *)
Inductive ev :=
(* struct radio_dev *)
| RSetFreq (freq : Z)
| RSetup (p : params)
| RSetPower (power : Z)
| RTx (frame : list Z)
| RRx (len symb_timeout timeout : Z)
| RRead (p : rxpkt)
| RSleep
| RRand (v : Z)
| RSetHandler
(* struct stack_hal: timers and callback *)
| TStart (t : timer_id) (ms : Z)
| TStop (t : timer_id)
| CbDown (e : err) (mtype : Z) (p : dlview)
(* struct stack_hal: crypto *)
| CAesNew (key : list Z)
| CAesEnc (src : list Z)
| CAesDel
| CCmacNew (key : list Z)
| CCmacUpd (data : list Z)
| CCmacFin
| CCmacDel
(* struct uwan_mac_callbacks *)
| MBattery (level : Z)
| MLinkCheck (margin gw_cnt : Z)
| MGetTime (t : Z)
| MTimeResult (dev_time ns_time fraq : Z)
(* libc *)
| LSrand (seed : Z)
| LRand (v : Z)
(* struct uwan_clock_sync_callbacks *)
| KCorrection (v : Z)
| KPeriod (seconds : Z)
| KUnixtime (t : Z)
| KResync.

(** The outside world. Answers may depend on the whole history of external
    calls; crypto primitives are functions of key and input (the HAL's
    contexts only carry the key and, for CMAC, the data fed so far). *)
Record env := Mk_env {
  e_aes : list Z -> list Z -> list Z;        (* key, block -> block *)
  e_cmac : list Z -> list Z -> list Z;       (* key, message -> digest *)
  e_rand : list ev -> Z;                     (* libc rand() *)
  e_radio_rand : list ev -> Z;               (* radio->rand() *)
  e_pkt : list ev -> rxpkt;                  (* radio->read_packet() *)
  e_battery : list ev -> Z;
  e_devtime : list ev -> Z;
  e_unixtime : list ev -> Z;
  (* C99 6.5.7: [byte << 24] is undefined for byte >= 0x80 (int is 32 bits).
     [false]: two's-complement result, as gcc and clang document;
     [true]: treat it as undefined behaviour. *)
  e_strict_shl : bool
}.

(** The environment keeps the C types of the interface. *)
Record env_ok (E : env) : Prop := Mk_env_ok {
  ok_aes_len : forall k b, length (e_aes E k b) = 16%nat;
  ok_aes_byte : forall k b, bytes_ok (e_aes E k b);
  ok_cmac_len : forall k m, length (e_cmac E k m) = 16%nat;
  ok_cmac_byte : forall k m, bytes_ok (e_cmac E k m);
  ok_rand : forall h, 0 <= e_rand E h < 2147483648;
  ok_radio_rand : forall h, 0 <= e_radio_rand E h < 4294967296;
  ok_pkt_len : forall h, (length (rx_data (e_pkt E h)) <= 255)%nat;
  ok_pkt_byte : forall h, bytes_ok (rx_data (e_pkt E h));
  ok_pkt_snr : forall h, -128 <= rx_snr (e_pkt E h) < 128;
  ok_pkt_rssi : forall h, -32768 <= rx_rssi (e_pkt E h) < 32768;
  ok_battery : forall h, 0 <= e_battery E h < 256;
  ok_devtime : forall h, 0 <= e_devtime E h < 4294967296;
  ok_unixtime : forall h, 0 <= e_unixtime E h < 4294967296
}.

(** src/channels.c:36-38 *)
Record chans := Mk_chans {
  uw_channels_max_count : Z; (* src/channels.c:36, uint8_t *)
  uw_channels_mask : list Z; (* src/channels.c:37, uint8_t[2] *)
  uw_channels : list Z (* src/channels.c:38, uint32_t[16] *)
}.
Definition set_uw_channels_max_count (v : Z) (r : chans) : chans :=
  Mk_chans v (uw_channels_mask r) (uw_channels r).
Definition set_uw_channels_mask (v : list Z) (r : chans) : chans :=
  Mk_chans (uw_channels_max_count r) v (uw_channels r).
Definition set_uw_channels (v : list Z) (r : chans) : chans :=
  Mk_chans (uw_channels_max_count r) (uw_channels_mask r) v.

(** src/adr.c:48-51 *)
Record adrst := Mk_adrst {
  ack_cnt : Z; (* src/adr.c:48, uint32_t *)
  ack_limit : Z; (* src/adr.c:49, uint8_t *)
  ack_delay : Z; (* src/adr.c:50, uint8_t *)
  adr_is_enabled : bool (* src/adr.c:51 *)
}.
Definition set_ack_cnt (v : Z) (r : adrst) : adrst :=
  Mk_adrst v (ack_limit r) (ack_delay r) (adr_is_enabled r).
Definition set_ack_limit (v : Z) (r : adrst) : adrst :=
  Mk_adrst (ack_cnt r) v (ack_delay r) (adr_is_enabled r).
Definition set_ack_delay (v : Z) (r : adrst) : adrst :=
  Mk_adrst (ack_cnt r) (ack_limit r) v (adr_is_enabled r).
Definition set_adr_is_enabled (v : bool) (r : adrst) : adrst :=
  Mk_adrst (ack_cnt r) (ack_limit r) (ack_delay r) v.

(** src/mac.c:66-70 *)
Record macst := Mk_macst {
  mac_buf : list Z; (* src/mac.c:66, uint8_t[15] *)
  mac_buf_pos : Z; (* src/mac.c:67, uint8_t *)
  mac_save_dev_time : bool; (* src/mac.c:68 *)
  mac_dev_time : Z; (* src/mac.c:69, uint32_t *)
  mac_cbs : option mac_callbacks (* src/mac.c:70, pointer, None = NULL *)
}.
Definition set_mac_buf (v : list Z) (r : macst) : macst :=
  Mk_macst v (mac_buf_pos r) (mac_save_dev_time r) (mac_dev_time r) (mac_cbs r).
Definition set_mac_buf_pos (v : Z) (r : macst) : macst :=
  Mk_macst (mac_buf r) v (mac_save_dev_time r) (mac_dev_time r) (mac_cbs r).
Definition set_mac_save_dev_time (v : bool) (r : macst) : macst :=
  Mk_macst (mac_buf r) (mac_buf_pos r) v (mac_dev_time r) (mac_cbs r).
Definition set_mac_dev_time (v : Z) (r : macst) : macst :=
  Mk_macst (mac_buf r) (mac_buf_pos r) (mac_save_dev_time r) v (mac_cbs r).
Definition set_mac_cbs (v : option mac_callbacks) (r : macst) : macst :=
  Mk_macst (mac_buf r) (mac_buf_pos r) (mac_save_dev_time r) (mac_dev_time r) v.

(** src/stack.h:34-43, uw_session *)
Record session := Mk_session {
  is_joined : bool; (* src/stack.h:35 *)
  ack_required : bool; (* src/stack.h:36 *)
  ses_dr : Z; (* src/stack.h:37, enum uwan_dr *)
  dev_addr : Z; (* src/stack.h:38, uint32_t *)
  f_cnt_up : Z; (* src/stack.h:39, uint32_t *)
  f_cnt_down : Z; (* src/stack.h:40, uint32_t *)
  nwk_s_key : list Z; (* src/stack.h:41, uint8_t[16] *)
  app_s_key : list Z (* src/stack.h:42, uint8_t[16] *)
}.
Definition set_is_joined (v : bool) (r : session) : session :=
  Mk_session v (ack_required r) (ses_dr r) (dev_addr r) (f_cnt_up r) (f_cnt_down r) (nwk_s_key r) (app_s_key r).
Definition set_ack_required (v : bool) (r : session) : session :=
  Mk_session (is_joined r) v (ses_dr r) (dev_addr r) (f_cnt_up r) (f_cnt_down r) (nwk_s_key r) (app_s_key r).
Definition set_ses_dr (v : Z) (r : session) : session :=
  Mk_session (is_joined r) (ack_required r) v (dev_addr r) (f_cnt_up r) (f_cnt_down r) (nwk_s_key r) (app_s_key r).
Definition set_dev_addr (v : Z) (r : session) : session :=
  Mk_session (is_joined r) (ack_required r) (ses_dr r) v (f_cnt_up r) (f_cnt_down r) (nwk_s_key r) (app_s_key r).
Definition set_f_cnt_up (v : Z) (r : session) : session :=
  Mk_session (is_joined r) (ack_required r) (ses_dr r) (dev_addr r) v (f_cnt_down r) (nwk_s_key r) (app_s_key r).
Definition set_f_cnt_down (v : Z) (r : session) : session :=
  Mk_session (is_joined r) (ack_required r) (ses_dr r) (dev_addr r) (f_cnt_up r) v (nwk_s_key r) (app_s_key r).
Definition set_nwk_s_key (v : list Z) (r : session) : session :=
  Mk_session (is_joined r) (ack_required r) (ses_dr r) (dev_addr r) (f_cnt_up r) (f_cnt_down r) v (app_s_key r).
Definition set_app_s_key (v : list Z) (r : session) : session :=
  Mk_session (is_joined r) (ack_required r) (ses_dr r) (dev_addr r) (f_cnt_up r) (f_cnt_down r) (nwk_s_key r) v.

(** src/stack.c:94-123 *)
Record stackst := Mk_stackst {
  uw_region : option region; (* src/stack.c:94, None = NULL *)
  pkt_params : params; (* src/stack.c:99 *)
  uw_frame : list Z; (* src/stack.c:100, uint8_t[255] *)
  uw_state : stack_state; (* src/stack.c:101 *)
  uw_rx1_delay : Z; (* src/stack.c:102, uint32_t *)
  uw_rx1_offset : Z; (* src/stack.c:103, uint8_t *)
  uw_rx2_delay : Z; (* src/stack.c:104, uint32_t *)
  uw_is_join_state : bool; (* src/stack.c:105 *)
  uw_dev_nonce : Z; (* src/stack.c:106, uint32_t *)
  uw_dev_eui : list Z; (* src/stack.c:107, uint8_t[8] *)
  uw_app_eui : list Z; (* src/stack.c:108, uint8_t[8] *)
  uw_app_key : list Z; (* src/stack.c:109, uint8_t[16] *)
  default_rx1_delay : Z; (* src/stack.c:112, uint32_t *)
  default_dr : Z; (* src/stack.c:113, enum uwan_dr *)
  default_nb_trans : Z; (* src/stack.c:114, uint8_t *)
  uw_nb_trans : Z; (* src/stack.c:115, uint8_t *)
  default_tx_power : Z; (* src/stack.c:116, uint8_t *)
  uw_tx_power : Z; (* src/stack.c:117, uint8_t *)
  default_max_eirp : Z; (* src/stack.c:118, int8_t *)
  current_snr : Z; (* src/stack.c:119, int8_t *)
  uw_rx2_frequency : Z; (* src/stack.c:122, uint32_t *)
  uw_rx2_dr : Z (* src/stack.c:123, enum uwan_dr *)
}.
Definition set_uw_region (v : option region) (r : stackst) : stackst :=
  Mk_stackst v (pkt_params r) (uw_frame r) (uw_state r) (uw_rx1_delay r) (uw_rx1_offset r) (uw_rx2_delay r) (uw_is_join_state r) (uw_dev_nonce r) (uw_dev_eui r) (uw_app_eui r) (uw_app_key r) (default_rx1_delay r) (default_dr r) (default_nb_trans r) (uw_nb_trans r) (default_tx_power r) (uw_tx_power r) (default_max_eirp r) (current_snr r) (uw_rx2_frequency r) (uw_rx2_dr r).
Definition set_pkt_params (v : params) (r : stackst) : stackst :=
  Mk_stackst (uw_region r) v (uw_frame r) (uw_state r) (uw_rx1_delay r) (uw_rx1_offset r) (uw_rx2_delay r) (uw_is_join_state r) (uw_dev_nonce r) (uw_dev_eui r) (uw_app_eui r) (uw_app_key r) (default_rx1_delay r) (default_dr r) (default_nb_trans r) (uw_nb_trans r) (default_tx_power r) (uw_tx_power r) (default_max_eirp r) (current_snr r) (uw_rx2_frequency r) (uw_rx2_dr r).
Definition set_uw_frame (v : list Z) (r : stackst) : stackst :=
  Mk_stackst (uw_region r) (pkt_params r) v (uw_state r) (uw_rx1_delay r) (uw_rx1_offset r) (uw_rx2_delay r) (uw_is_join_state r) (uw_dev_nonce r) (uw_dev_eui r) (uw_app_eui r) (uw_app_key r) (default_rx1_delay r) (default_dr r) (default_nb_trans r) (uw_nb_trans r) (default_tx_power r) (uw_tx_power r) (default_max_eirp r) (current_snr r) (uw_rx2_frequency r) (uw_rx2_dr r).
Definition set_uw_state (v : stack_state) (r : stackst) : stackst :=
  Mk_stackst (uw_region r) (pkt_params r) (uw_frame r) v (uw_rx1_delay r) (uw_rx1_offset r) (uw_rx2_delay r) (uw_is_join_state r) (uw_dev_nonce r) (uw_dev_eui r) (uw_app_eui r) (uw_app_key r) (default_rx1_delay r) (default_dr r) (default_nb_trans r) (uw_nb_trans r) (default_tx_power r) (uw_tx_power r) (default_max_eirp r) (current_snr r) (uw_rx2_frequency r) (uw_rx2_dr r).
Definition set_uw_rx1_delay (v : Z) (r : stackst) : stackst :=
  Mk_stackst (uw_region r) (pkt_params r) (uw_frame r) (uw_state r) v (uw_rx1_offset r) (uw_rx2_delay r) (uw_is_join_state r) (uw_dev_nonce r) (uw_dev_eui r) (uw_app_eui r) (uw_app_key r) (default_rx1_delay r) (default_dr r) (default_nb_trans r) (uw_nb_trans r) (default_tx_power r) (uw_tx_power r) (default_max_eirp r) (current_snr r) (uw_rx2_frequency r) (uw_rx2_dr r).
Definition set_uw_rx1_offset (v : Z) (r : stackst) : stackst :=
  Mk_stackst (uw_region r) (pkt_params r) (uw_frame r) (uw_state r) (uw_rx1_delay r) v (uw_rx2_delay r) (uw_is_join_state r) (uw_dev_nonce r) (uw_dev_eui r) (uw_app_eui r) (uw_app_key r) (default_rx1_delay r) (default_dr r) (default_nb_trans r) (uw_nb_trans r) (default_tx_power r) (uw_tx_power r) (default_max_eirp r) (current_snr r) (uw_rx2_frequency r) (uw_rx2_dr r).
Definition set_uw_rx2_delay (v : Z) (r : stackst) : stackst :=
  Mk_stackst (uw_region r) (pkt_params r) (uw_frame r) (uw_state r) (uw_rx1_delay r) (uw_rx1_offset r) v (uw_is_join_state r) (uw_dev_nonce r) (uw_dev_eui r) (uw_app_eui r) (uw_app_key r) (default_rx1_delay r) (default_dr r) (default_nb_trans r) (uw_nb_trans r) (default_tx_power r) (uw_tx_power r) (default_max_eirp r) (current_snr r) (uw_rx2_frequency r) (uw_rx2_dr r).
Definition set_uw_is_join_state (v : bool) (r : stackst) : stackst :=
  Mk_stackst (uw_region r) (pkt_params r) (uw_frame r) (uw_state r) (uw_rx1_delay r) (uw_rx1_offset r) (uw_rx2_delay r) v (uw_dev_nonce r) (uw_dev_eui r) (uw_app_eui r) (uw_app_key r) (default_rx1_delay r) (default_dr r) (default_nb_trans r) (uw_nb_trans r) (default_tx_power r) (uw_tx_power r) (default_max_eirp r) (current_snr r) (uw_rx2_frequency r) (uw_rx2_dr r).
Definition set_uw_dev_nonce (v : Z) (r : stackst) : stackst :=
  Mk_stackst (uw_region r) (pkt_params r) (uw_frame r) (uw_state r) (uw_rx1_delay r) (uw_rx1_offset r) (uw_rx2_delay r) (uw_is_join_state r) v (uw_dev_eui r) (uw_app_eui r) (uw_app_key r) (default_rx1_delay r) (default_dr r) (default_nb_trans r) (uw_nb_trans r) (default_tx_power r) (uw_tx_power r) (default_max_eirp r) (current_snr r) (uw_rx2_frequency r) (uw_rx2_dr r).
Definition set_uw_dev_eui (v : list Z) (r : stackst) : stackst :=
  Mk_stackst (uw_region r) (pkt_params r) (uw_frame r) (uw_state r) (uw_rx1_delay r) (uw_rx1_offset r) (uw_rx2_delay r) (uw_is_join_state r) (uw_dev_nonce r) v (uw_app_eui r) (uw_app_key r) (default_rx1_delay r) (default_dr r) (default_nb_trans r) (uw_nb_trans r) (default_tx_power r) (uw_tx_power r) (default_max_eirp r) (current_snr r) (uw_rx2_frequency r) (uw_rx2_dr r).
Definition set_uw_app_eui (v : list Z) (r : stackst) : stackst :=
  Mk_stackst (uw_region r) (pkt_params r) (uw_frame r) (uw_state r) (uw_rx1_delay r) (uw_rx1_offset r) (uw_rx2_delay r) (uw_is_join_state r) (uw_dev_nonce r) (uw_dev_eui r) v (uw_app_key r) (default_rx1_delay r) (default_dr r) (default_nb_trans r) (uw_nb_trans r) (default_tx_power r) (uw_tx_power r) (default_max_eirp r) (current_snr r) (uw_rx2_frequency r) (uw_rx2_dr r).
Definition set_uw_app_key (v : list Z) (r : stackst) : stackst :=
  Mk_stackst (uw_region r) (pkt_params r) (uw_frame r) (uw_state r) (uw_rx1_delay r) (uw_rx1_offset r) (uw_rx2_delay r) (uw_is_join_state r) (uw_dev_nonce r) (uw_dev_eui r) (uw_app_eui r) v (default_rx1_delay r) (default_dr r) (default_nb_trans r) (uw_nb_trans r) (default_tx_power r) (uw_tx_power r) (default_max_eirp r) (current_snr r) (uw_rx2_frequency r) (uw_rx2_dr r).
Definition set_default_rx1_delay (v : Z) (r : stackst) : stackst :=
  Mk_stackst (uw_region r) (pkt_params r) (uw_frame r) (uw_state r) (uw_rx1_delay r) (uw_rx1_offset r) (uw_rx2_delay r) (uw_is_join_state r) (uw_dev_nonce r) (uw_dev_eui r) (uw_app_eui r) (uw_app_key r) v (default_dr r) (default_nb_trans r) (uw_nb_trans r) (default_tx_power r) (uw_tx_power r) (default_max_eirp r) (current_snr r) (uw_rx2_frequency r) (uw_rx2_dr r).
Definition set_default_dr (v : Z) (r : stackst) : stackst :=
  Mk_stackst (uw_region r) (pkt_params r) (uw_frame r) (uw_state r) (uw_rx1_delay r) (uw_rx1_offset r) (uw_rx2_delay r) (uw_is_join_state r) (uw_dev_nonce r) (uw_dev_eui r) (uw_app_eui r) (uw_app_key r) (default_rx1_delay r) v (default_nb_trans r) (uw_nb_trans r) (default_tx_power r) (uw_tx_power r) (default_max_eirp r) (current_snr r) (uw_rx2_frequency r) (uw_rx2_dr r).
Definition set_default_nb_trans (v : Z) (r : stackst) : stackst :=
  Mk_stackst (uw_region r) (pkt_params r) (uw_frame r) (uw_state r) (uw_rx1_delay r) (uw_rx1_offset r) (uw_rx2_delay r) (uw_is_join_state r) (uw_dev_nonce r) (uw_dev_eui r) (uw_app_eui r) (uw_app_key r) (default_rx1_delay r) (default_dr r) v (uw_nb_trans r) (default_tx_power r) (uw_tx_power r) (default_max_eirp r) (current_snr r) (uw_rx2_frequency r) (uw_rx2_dr r).
Definition set_uw_nb_trans (v : Z) (r : stackst) : stackst :=
  Mk_stackst (uw_region r) (pkt_params r) (uw_frame r) (uw_state r) (uw_rx1_delay r) (uw_rx1_offset r) (uw_rx2_delay r) (uw_is_join_state r) (uw_dev_nonce r) (uw_dev_eui r) (uw_app_eui r) (uw_app_key r) (default_rx1_delay r) (default_dr r) (default_nb_trans r) v (default_tx_power r) (uw_tx_power r) (default_max_eirp r) (current_snr r) (uw_rx2_frequency r) (uw_rx2_dr r).
Definition set_default_tx_power (v : Z) (r : stackst) : stackst :=
  Mk_stackst (uw_region r) (pkt_params r) (uw_frame r) (uw_state r) (uw_rx1_delay r) (uw_rx1_offset r) (uw_rx2_delay r) (uw_is_join_state r) (uw_dev_nonce r) (uw_dev_eui r) (uw_app_eui r) (uw_app_key r) (default_rx1_delay r) (default_dr r) (default_nb_trans r) (uw_nb_trans r) v (uw_tx_power r) (default_max_eirp r) (current_snr r) (uw_rx2_frequency r) (uw_rx2_dr r).
Definition set_uw_tx_power (v : Z) (r : stackst) : stackst :=
  Mk_stackst (uw_region r) (pkt_params r) (uw_frame r) (uw_state r) (uw_rx1_delay r) (uw_rx1_offset r) (uw_rx2_delay r) (uw_is_join_state r) (uw_dev_nonce r) (uw_dev_eui r) (uw_app_eui r) (uw_app_key r) (default_rx1_delay r) (default_dr r) (default_nb_trans r) (uw_nb_trans r) (default_tx_power r) v (default_max_eirp r) (current_snr r) (uw_rx2_frequency r) (uw_rx2_dr r).
Definition set_default_max_eirp (v : Z) (r : stackst) : stackst :=
  Mk_stackst (uw_region r) (pkt_params r) (uw_frame r) (uw_state r) (uw_rx1_delay r) (uw_rx1_offset r) (uw_rx2_delay r) (uw_is_join_state r) (uw_dev_nonce r) (uw_dev_eui r) (uw_app_eui r) (uw_app_key r) (default_rx1_delay r) (default_dr r) (default_nb_trans r) (uw_nb_trans r) (default_tx_power r) (uw_tx_power r) v (current_snr r) (uw_rx2_frequency r) (uw_rx2_dr r).
Definition set_current_snr (v : Z) (r : stackst) : stackst :=
  Mk_stackst (uw_region r) (pkt_params r) (uw_frame r) (uw_state r) (uw_rx1_delay r) (uw_rx1_offset r) (uw_rx2_delay r) (uw_is_join_state r) (uw_dev_nonce r) (uw_dev_eui r) (uw_app_eui r) (uw_app_key r) (default_rx1_delay r) (default_dr r) (default_nb_trans r) (uw_nb_trans r) (default_tx_power r) (uw_tx_power r) (default_max_eirp r) v (uw_rx2_frequency r) (uw_rx2_dr r).
Definition set_uw_rx2_frequency (v : Z) (r : stackst) : stackst :=
  Mk_stackst (uw_region r) (pkt_params r) (uw_frame r) (uw_state r) (uw_rx1_delay r) (uw_rx1_offset r) (uw_rx2_delay r) (uw_is_join_state r) (uw_dev_nonce r) (uw_dev_eui r) (uw_app_eui r) (uw_app_key r) (default_rx1_delay r) (default_dr r) (default_nb_trans r) (uw_nb_trans r) (default_tx_power r) (uw_tx_power r) (default_max_eirp r) (current_snr r) v (uw_rx2_dr r).
Definition set_uw_rx2_dr (v : Z) (r : stackst) : stackst :=
  Mk_stackst (uw_region r) (pkt_params r) (uw_frame r) (uw_state r) (uw_rx1_delay r) (uw_rx1_offset r) (uw_rx2_delay r) (uw_is_join_state r) (uw_dev_nonce r) (uw_dev_eui r) (uw_app_eui r) (uw_app_key r) (default_rx1_delay r) (default_dr r) (default_nb_trans r) (uw_nb_trans r) (default_tx_power r) (uw_tx_power r) (default_max_eirp r) (current_snr r) (uw_rx2_frequency r) v.

(** src/ext/clock_sync.c:48-58 *)
Record csync := Mk_csync {
  app_time_req_pending : bool; (* src/ext/clock_sync.c:51 *)
  state_token_req : Z; (* src/ext/clock_sync.c:52, uint8_t *)
  cs_callbacks : option cs_cbs; (* src/ext/clock_sync.c:54, None = NULL *)
  ans_buf : list Z; (* src/ext/clock_sync.c:55, uint8_t[32] *)
  ans_buf_data_size : Z; (* src/ext/clock_sync.c:56, uint8_t *)
  force_resync_nb_of_rep : Z; (* src/ext/clock_sync.c:57, int *)
  ans_pending : bool (* src/ext/clock_sync.c:58 *)
}.
Definition set_app_time_req_pending (v : bool) (r : csync) : csync :=
  Mk_csync v (state_token_req r) (cs_callbacks r) (ans_buf r) (ans_buf_data_size r) (force_resync_nb_of_rep r) (ans_pending r).
Definition set_state_token_req (v : Z) (r : csync) : csync :=
  Mk_csync (app_time_req_pending r) v (cs_callbacks r) (ans_buf r) (ans_buf_data_size r) (force_resync_nb_of_rep r) (ans_pending r).
Definition set_cs_callbacks (v : option cs_cbs) (r : csync) : csync :=
  Mk_csync (app_time_req_pending r) (state_token_req r) v (ans_buf r) (ans_buf_data_size r) (force_resync_nb_of_rep r) (ans_pending r).
Definition set_ans_buf (v : list Z) (r : csync) : csync :=
  Mk_csync (app_time_req_pending r) (state_token_req r) (cs_callbacks r) v (ans_buf_data_size r) (force_resync_nb_of_rep r) (ans_pending r).
Definition set_ans_buf_data_size (v : Z) (r : csync) : csync :=
  Mk_csync (app_time_req_pending r) (state_token_req r) (cs_callbacks r) (ans_buf r) v (force_resync_nb_of_rep r) (ans_pending r).
Definition set_force_resync_nb_of_rep (v : Z) (r : csync) : csync :=
  Mk_csync (app_time_req_pending r) (state_token_req r) (cs_callbacks r) (ans_buf r) (ans_buf_data_size r) v (ans_pending r).
Definition set_ans_pending (v : bool) (r : csync) : csync :=
  Mk_csync (app_time_req_pending r) (state_token_req r) (cs_callbacks r) (ans_buf r) (ans_buf_data_size r) (force_resync_nb_of_rep r) v.

(** All file-scope variables of the stack and of the clock-sync extension. *)
Record st := Mk_st {
  s_ch : chans;
  s_adr : adrst;
  s_mac : macst;
  s_ses : session;
  s_stk : stackst;
  s_cs : csync
}.
Definition on_ch (f : chans -> chans) (s : st) : st :=
  Mk_st (f (s_ch s)) (s_adr s) (s_mac s) (s_ses s) (s_stk s) (s_cs s).
Definition on_adr (f : adrst -> adrst) (s : st) : st :=
  Mk_st (s_ch s) (f (s_adr s)) (s_mac s) (s_ses s) (s_stk s) (s_cs s).
Definition on_mac (f : macst -> macst) (s : st) : st :=
  Mk_st (s_ch s) (s_adr s) (f (s_mac s)) (s_ses s) (s_stk s) (s_cs s).
Definition on_ses (f : session -> session) (s : st) : st :=
  Mk_st (s_ch s) (s_adr s) (s_mac s) (f (s_ses s)) (s_stk s) (s_cs s).
Definition on_stk (f : stackst -> stackst) (s : st) : st :=
  Mk_st (s_ch s) (s_adr s) (s_mac s) (s_ses s) (f (s_stk s)) (s_cs s).
Definition on_cs (f : csync -> csync) (s : st) : st :=
  Mk_st (s_ch s) (s_adr s) (s_mac s) (s_ses s) (s_stk s) (f (s_cs s)).

(** ** Power-on values of the file-scope variables
    (C static initialisation: zero unless an initialiser is given). *)
Definition params0 : params := Mk_params 0 0 0 0 false false false.
Definition zeros (n : nat) : list Z := repeat 0 n.
(** src/stack.c:97-123, src/adr.c:48-51, src/mac.c:66-70, src/channels.c:36-38,
    src/ext/clock_sync.c:51-58. default_join_delay (src/stack.c:111) is never
    written, so it is the constant JOIN_DELAY of Stack.v. *)
Definition power_on : st := Mk_st
  (Mk_chans 0 (zeros 2) (zeros 16))
  (Mk_adrst 0 64 32 false)
  (Mk_macst (zeros 15) 0 false 0 None)
  (Mk_session false false 0 0 0 0 (zeros 16) (zeros 16))
  (Mk_stackst None params0 (zeros 255) NOT_INIT 0 0 0 false 0
     (zeros 8) (zeros 8) (zeros 16)
     1000 0 1 1 0 0 14 0 0 0)
  (Mk_csync false 0 None (zeros 32) 0 1 false).

(** The monad instance of the stack. *)
Definition C (A : Type) : Type := M st ev A.
Definition get_ch {A} (f : chans -> A) : C A := gets (fun s => f (s_ch s)).
Definition get_adr {A} (f : adrst -> A) : C A := gets (fun s => f (s_adr s)).
Definition get_mac {A} (f : macst -> A) : C A := gets (fun s => f (s_mac s)).
Definition get_ses {A} (f : session -> A) : C A := gets (fun s => f (s_ses s)).
Definition get_stk {A} (f : stackst -> A) : C A := gets (fun s => f (s_stk s)).
Definition get_cs {A} (f : csync -> A) : C A := gets (fun s => f (s_cs s)).
Definition mod_ch (f : chans -> chans) : C unit := modify (on_ch f).
Definition mod_adr (f : adrst -> adrst) : C unit := modify (on_adr f).
Definition mod_mac (f : macst -> macst) : C unit := modify (on_mac f).
Definition mod_ses (f : session -> session) : C unit := modify (on_ses f).
Definition mod_stk (f : stackst -> stackst) : C unit := modify (on_stk f).
Definition mod_cs (f : csync -> csync) : C unit := modify (on_cs f).

(** [b << 24] for a byte promoted to int, see [e_strict_shl]. *)
Definition shl24 (E : env) (b : Z) : C Z :=
  if e_strict_shl E && (128 <=? b) then fail UB_shift else ret (Z.shiftl b 24).

(** src/stack.c:49-61, src/stack.h:30-31 *)
Definition JOIN_DELAY := 5000.
Definition SECOND_RX_OFFSET := 1000.
Definition FRAME_MAX_SIZE := 255.
Definition RX_SYMB_TIMEOUT := 8.
Definition MAX_FCNT_GAP := 16384.
Definition FREQ_MIN := 860000000.
Definition FREQ_MAX := 870000000.
Definition NB_TRANS_MIN := 1.
Definition NB_TRANS_MAX := 15.
