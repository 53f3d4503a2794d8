(** SpecSys.v -- stack and radio driver put together: the calls the stack makes to
    struct radio_dev (include/uwan/stack.h:166-179) are answered by a driver, which
    works a chip. *)
From Verif Require Export SpecTx SpecDrv.

(** the stack's calls to the radio *)
Definition asks_radio (e : ev) : bool :=
  match e with
  | RSetFreq _ | RSetup _ | RSetPower _ | RTx _ | RRx _ _ _ | RRead _ | RSleep | RRand _ | RSetHandler => true
  | _ => false
  end.
(** a call of the stack and the driver's entry that serves it; read_packet() is given
    the 255 bytes of uw_frame (src/stack.c:423-425) *)
Inductive served : ev -> rentry -> Prop :=
| served_handler v l : served RSetHandler (PHandler true, v, l)
| served_rand n l : served (RRand n) (PRand, RvNum n, l)
| served_freq f v l : served (RSetFreq f) (PFreq f, v, l)
| served_setup p v l : served (RSetup p) (PSetup p, v, l)
| served_power p v l : served (RSetPower p) (PPower p, v, l)
| served_tx b v l : served (RTx b) (PTx b, v, l)
| served_rx n symb t v l : served (RRx n symb t) (PRx n symb t, v, l)
| served_read p l : served (RRead p) (PRead 255, RvPkt p, l)
| served_sleep v l : served RSleep (PSleep, v, l).
(** Beside the stack, the program calls the interrupt handler and may select the
    public network again. *)
Definition beside (o : rop) : bool := match o with PIrq | PPublic true => true | _ => false end.
(** The program initialises the driver successfully; from then on the driver is
    called by the stack, which makes the calls [es], and beside it, in any order. *)
Definition drives (es : list ev) (dtr : list rentry) : Prop :=
  exists hal d l dtr', dtr = (PInit hal d, RvBool true, l) :: dtr' /\ rop_wf (PInit hal d) /\
    Forall2 served (filter asks_radio es) (filter (fun t => negb (beside (fst (fst t)))) dtr').

(** ** What the stack asks the radio to do *)
Inductive doing :=
| Send (freq : Z) (p : params) (power : Z) (frame : list Z)
| Hear (freq : Z) (p : params) (size symbols timeout : Z)
| Noise.                                        (* random numbers are noise received *)
(** every transmission and reception asked for, with the frequency, the parameters
    and the power set last *)
Fixpoint doings (freq : Z) (p : params) (power : Z) (es : list ev) : list doing :=
  match es with
  | [] => []
  | RSetFreq f :: es' => doings f p power es'
  | RSetup q :: es' => doings freq q power es'
  | RSetPower x :: es' => doings freq p x es'
  | RTx b :: es' => Send freq p power b :: doings freq p power es'
  | RRx n symb t :: es' => Hear freq p n symb t :: doings freq p power es'
  | RRand _ :: es' => Noise :: doings freq p power es'
  | _ :: es' => doings freq p power es'
  end.
Definition asked_of (tr : list entry) : list doing := doings 0 no_params 0 (all_evs tr).

(** ** What the application's calls and the radio's events are to lead to *)
Definition no_error (v : val) : bool := match v with VErr ERR_NO => true | _ => false end.
Definition is_up (o : op) : bool := match o with OJoin => true | _ => is_uplink_call o end.
(** data rate of a transmission *)
Definition send_dr (o : op) (w : world) : Z := match o with OJoin => default_dr (stk w) | _ => up_dr w end.
(** maximum EIRP, 2 dB less per step of TXPower; the radio's parameter is an int8_t *)
Definition send_dbm (w : world) : Z := (default_max_eirp (stk w) - 2 * uw_tx_power (stk w) + 128) mod 256 - 128.
(** data rate of the first window, for an uplink sent at [d] (see C32 about the rate
    the offset is applied to) *)
Definition rx1_rate (w : world) (d : Z) : Z := if uw_rx1_offset (stk w) =? 0 then d else Z.max 0 (up_dr w - uw_rx1_offset (stk w)).
(** [p]: the phase of the transaction; [win]: frequency and data rate of the uplink or
    of the window. What a call or event leads to (the frequency of an uplink: C06, the
    frame: C01 and C25), and the window that follows *)
Definition does (w : world) (p : phase) (win : Z * Z) (t : entry) : list doing :=
  let '(o, v, es) := t in
  match o, p with
  | OInit _, _ => [Noise]
  | OTimer TIMER_RX1, P_rx1 | OTimer TIMER_RX2, P_rx2 => [Hear (fst win) (lora (snd win) true) 255 8 0]
  | _, _ => if is_up o && no_error v then [Send (hd 0 (freqs es)) (lora (send_dr o w) false) (send_dbm w) (hd [] (tx_frames es))] else []
  end.
Definition aims (w : world) (p : phase) (win : Z * Z) (t : entry) : Z * Z :=
  let '(o, v, es) := t in
  match o, p with
  | OIrq m, P_tx => if Z.testbit m 2 then (fst win, rx1_rate w (snd win)) else win
  | OIrq m, P_rx1 => if Z.testbit m 0 then (uw_rx2_frequency (stk w), uw_rx2_dr (stk w)) else win
  | _, _ => if is_up o && no_error v then (hd 0 (freqs es), send_dr o w) else win
  end.
(** [meant E tr w win l]: the run [tr] from power-on to [w] is to lead to [l] *)
Inductive meant (E : env) : list entry -> world -> Z * Z -> list doing -> Prop :=
| meant_0 : meant E [] world0 (0, 0) []
| meant_S tr w win l o v es w' : meant E tr w win l -> step E w o = Some (v, es, w') ->
    meant E (tr ++ [(o, v, es)]) w' (aims w (phase_of tr) win (o, v, es)) (l ++ does w (phase_of tr) win (o, v, es)).

(** ** What LoRaWAN wants on the air *)
(** data rate [dr] of EU868/RU864: LoRa SF12 ... SF7 at 125 kHz, coding rate 4/5,
    explicit header, preamble of 8 symbols, sync word 0x34, the long symbols of DR0 and
    DR1 optimised; uplinks with normal IQ, downlinks with inverted IQ *)
Definition lorawan (dr : Z) (up : bool) (m : modem) : Prop :=
  0 <= dr <= 5 /\ m_lora m = true /\ m_sf m = 12 - dr /\ m_khz m = 125 /\ m_cr m = 1 /\ m_implicit m = false /\ m_crc m = true /\
  m_iq m = Some (negb up) /\ m_preamble m = 8 /\ m_sync m = 52 /\ m_ldro m = (dr <=? 1).
(** [k]: the chip's synthesiser steps are 32 MHz / 2^k; [can]: the powers it can do *)
Definition on_air (k : Z) (can : Z -> bool) (x : doing) (a : act) : Prop :=
  match x, a with
  | Send f p power frame, Air m bytes =>
      bytes = frame /\ 860000000 <= f <= 870000000 /\ carrier k f m /\
      (exists dr, p = lora dr false /\ lorawan dr true m) /\ (can power = true -> m_dbm10 m = Some (10 * power))
  | Hear f p size symb t, Listen m how symb' size' =>
      how = Single /\ t = 0 /\ symb' = symb /\ symb = 8 /\ size' = size /\ size = 255 /\
      860000000 <= f <= 870000000 /\ carrier k f m /\ exists dr, p = lora dr true /\ lorawan dr false m
  | Noise, Listen _ how _ _ => how = Continuous
  | _, _ => False
  end.
(** powers in dBm; for the SX127x see C50 about the negative ones *)
Definition can127 (p : Z) : bool := (0 <=? p) && (p <=? 17).
Definition can126 (hp : bool) (p : Z) : bool := if hp then (-9 <=? p) && (p <=? 22) else (-17 <=? p) && (p <=? 15).
