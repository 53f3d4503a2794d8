(** SpecDown.v -- vocabulary of the statements about received frames. *)
From Verif Require Export SpecMac.

(** The radio reports a frame (flags of the event mask: bit 0 receive timeout,
    bit 1 reception done, bit 3 CRC error). *)
Definition receives (w : world) (m : Z) : Prop :=
  (uw_state (stk w) = RX1 \/ uw_state (stk w) = RX2) /\
  Z.testbit m 0 = false /\ Z.testbit m 1 = true /\ Z.testbit m 3 = false.
(** The packet the driver then delivers. In RX1 the RX2 timer is stopped first. *)
Definition rx_hist (w : world) : list ev :=
  w_hist w ++ match uw_state (stk w) with RX1 => [TStop TIMER_RX2] | _ => [] end.
Definition received (E : env) (w : world) : rxpkt := e_pkt E (rx_hist w).
(** waiting for the answer to a join-request *)
Definition joining (w : world) : bool := uw_is_join_state (stk w).

(** Fields of a data frame as bytes on air. *)
Definition fr_fopts_len (d : list Z) : nat := Z.to_nat (at_ d 5 mod 16).
Definition fr_fopts (d : list Z) : list Z := slice d 8 (fr_fopts_len d).
Definition fr_addr (d : list Z) : Z := unle (slice d 1 4).
Definition fr_cnt16 (d : list Z) : Z := unle (slice d 6 2).
Definition fr_body (d : list Z) : list Z := firstn (length d - 4) d.
Definition fr_mic (d : list Z) : list Z := skipn (length d - 4) d.
(** a data downlink by its first byte: major version R1, unconfirmed (3) or
    confirmed (5). The RFU bits of the byte are not looked at. *)
Definition fr_down (d : list Z) : Prop := at_ d 0 mod 4 = 0 /\ (at_ d 0 / 32 = 3 \/ at_ d 0 / 32 = 5).
Definition fr_confirmed (d : list Z) : Prop := at_ d 0 mod 4 = 0 /\ at_ d 0 / 32 = 5.
(** long enough for its header, options and MIC *)
Definition fr_sized (d : list Z) : Prop := (12 + fr_fopts_len d <= length d)%nat.

(** the call delivers a data downlink to the application *)
Definition delivers (E : env) (w : world) (m : Z) (es : list ev) : Prop :=
  joining w = false /\ exists t view, callbacks es = [(ERR_NO, t, view)].

(** the 32-bit counter a device holding [cur] may accept next, LoRaWAN 4.3.1.5 *)
Definition next_counter (cur n : Z) : Prop :=
  (cur = 0 /\ 0 <= n < 65536) \/ (0 < cur /\ cur < n <= cur + 16384 /\ n < 4294967296).

(** the counter a device holding [cur] holds after a frame addressed to it with
    the 16-bit field [c16], whether or not its MIC is right *)
Definition counter_after (cur c16 : Z) : Z :=
  let ahead := (c16 - cur) mod 65536 in
  if cur =? 0 then c16
  else if ahead <=? 16384 then (cur + ahead) mod 4294967296
  else ((cur / 65536 + 1) * 65536 + c16) mod 4294967296.

(** what a MAC command in the frame being received can read *)
Definition rx_ctx (E : env) (w : world) : mac_ctx :=
  Mk_mac_ctx (default_nb_trans (stk w)) (rx_snr (received E w)) (mac_dev_time (s_mac (w_st w)))
    (mac_cbs (s_mac (w_st w))) (e_battery E).
(** the calls of application handlers among the events *)
Definition mac_calls (es : list ev) : list ev :=
  filter (fun e => match e with MBattery _ | MLinkCheck _ _ | MTimeResult _ _ _ => true | _ => false end) es.
Definition cmd_hist (E : env) (w : world) : list ev := rx_hist w ++ [RRead (received E w); RSleep].
Definition dev_w (w : world) : dev := dev_of (w_st w).
