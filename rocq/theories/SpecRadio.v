(** SpecRadio.v -- what the radio drivers' bus traffic means to the chips, written
    from the data sheets (Semtech SX1276/77/78/79 rev. 7, SX1261/2 rev. 1.2), not
    from the drivers. Shares only the event type [hev] with the model. *)
From Verif Require Import Hal.

(** ** SPI transactions *)
(** One chip-select window holding the bytes sent and received, or another HAL call. *)
Inductive item := Tr (x : list (Z * Z)) | Do (e : hev).
(** [None]: a byte moved outside a window, a HAL call inside one, an empty or
    nested window, or a window left open. *)
Fixpoint parse (cur : option (list (Z * Z))) (es : list hev) : option (list item) :=
  match es with
  | [] => match cur with None => Some [] | Some _ => None end
  | e :: es' =>
      match e, cur with
      | HSelect true, None => parse (Some []) es'
      | HXfer o i, Some x => parse (Some (x ++ [(o, i)])) es'
      | HSelect false, Some (b :: x) => option_map (cons (Tr (b :: x))) (parse None es')
      | HSelect _, _ => None
      | HXfer _ _, _ => None
      | _, None => option_map (cons (Do e)) (parse None es')
      | _, Some _ => None
      end
  end.
Definition transcript (es : list hev) : option (list item) := parse None es.
Definition mosi (x : list (Z * Z)) : list Z := map fst x.
Definition miso (x : list (Z * Z)) : list Z := map snd x.
(** HAL calls other than bus traffic *)
Definition calls (its : list item) : list hev := flat_map (fun i => match i with Do e => [e] | _ => [] end) its.
Definition user_calls (its : list item) : list Z := flat_map (fun i => match i with Do (HUser m) => [m] | _ => [] end) its.

(** ** What a chip does on the air *)
Record modem := Mk_modem {
  m_lora : bool;
  m_steps : Z;           (* carrier, in synthesiser steps *)
  m_dbm10 : option Z;    (* output power, in 0.1 dBm *)
  m_sf : Z;
  m_khz : Z;             (* bandwidth *)
  m_cr : Z;              (* coding rate 4/(4+m_cr) *)
  m_ldro : bool;
  m_implicit : bool;
  m_crc : bool;
  m_iq : option bool;    (* inverted IQ; None: inconsistent settings *)
  m_preamble : Z;
  m_sync : Z
}.
Inductive lmode := Single | Continuous | Timed (steps : Z).
Inductive act := Air (m : modem) (bytes : list Z) | Listen (m : modem) (k : lmode) (symb maxlen : Z).
Definition aired (l : list act) : list (modem * list Z) := flat_map (fun a => match a with Air m b => [(m, b)] | _ => [] end) l.

Definition put (f : Z -> Z) (a v : Z) : Z -> Z := fun x => if x =? a then v else f x.
Definition bit (x n : Z) : bool := Z.odd (x / 2 ^ n).

(** ** SX1276 *)
Record c127 := Mk_c127 { c_reg : Z -> Z; c_fifo : Z -> Z; c_acts : list act }.
(** reset values, data sheet table 41 (LoRa page; registers not named read as 0) *)
Definition reset127 : Z -> Z := fun a =>
  if a =? 1 then 9 else if a =? 6 then 108 else if a =? 7 then 128 else if a =? 9 then 79 else if a =? 14 then 128 else
  if a =? 29 then 114 else if a =? 30 then 112 else if a =? 31 then 100 else if a =? 33 then 8 else if a =? 34 then 1 else
  if a =? 35 then 255 else if a =? 49 then 195 else if a =? 51 then 39 else if a =? 55 then 10 else if a =? 57 then 18 else if a =? 59 then 29 else if a =? 77 then 132 else 0.
(** RegPaConfig and RegPaDac, section 5.4.2/5.4.3 *)
Definition dbm127 (pa dac : Z) : option Z :=
  let out := pa mod 16 in
  if bit pa 7 then (if dac mod 8 =? 4 then Some (20 + 10 * out) else if dac mod 8 =? 7 then Some (50 + 10 * out) else None)
  else Some (108 + 6 * (pa / 16 mod 8) - (150 - 10 * out)).
Definition khz127 (code : Z) : Z := if code =? 7 then 125 else if code =? 8 then 250 else if code =? 9 then 500 else 0.
Definition modem127 (r : Z -> Z) : modem :=
  Mk_modem (bit (r 1) 7) (65536 * r 6 + 256 * r 7 + r 8) (dbm127 (r 9) (r 77)) (r 30 / 16) (khz127 (r 29 / 16))
    (r 29 / 2 mod 8) (bit (r 38) 3) (bit (r 29) 0) (bit (r 30) 2)
    (if (r 51 =? 39) && (r 59 =? 29) then Some false else if (r 51 =? 102) && (r 59 =? 25) then Some true else None)
    (256 * r 32 + r 33) (r 57).
Definition symb127 (r : Z -> Z) : Z := 256 * (r 30 mod 4) + r 31.
(** n bytes of a 256-byte memory *)
Definition mem (f : Z -> Z) (a n : Z) : list Z := map (fun i => f ((a + Z.of_nat i) mod 256)) (seq 0 (Z.to_nat n)).
(** Writing a register. RegFifo goes to the FIFO at RegFifoAddrPtr, which advances;
    the FIFO is not accessible in sleep mode. LongRangeMode only changes in sleep
    mode. Setting a mode in RegOpMode starts transmission or reception. (Not
    described: the pointer advancing on FIFO reads, the chip leaving TX and RX on
    its own, RegIrqFlags.) *)
Definition store127 (c : c127) (a v : Z) : c127 :=
  let r := c_reg c in
  if a =? 0 then
    if r 1 mod 8 =? 0 then c
    else Mk_c127 (put r 13 ((r 13 + 1) mod 256)) (put (c_fifo c) (r 13) v) (c_acts c)
  else if a =? 1 then
    let v := if r 1 mod 8 =? 0 then v else v mod 128 + 128 * b2z (bit (r 1) 7) in
    let r' := put r 1 v in
    Mk_c127 r' (c_fifo c) (c_acts c ++
      (if v mod 8 =? 3 then [Air (modem127 r') (mem (c_fifo c) (r 14) (r 34))] else
       if v mod 8 =? 5 then [Listen (modem127 r') Continuous (symb127 r') (r 35)] else
       if v mod 8 =? 6 then [Listen (modem127 r') Single (symb127 r') (r 35)] else []))
  else Mk_c127 (put r a v) (c_fifo c) (c_acts c).
(** a burst access advances the address, except on the FIFO *)
Fixpoint burst127 (c : c127) (a : Z) (vs : list Z) : c127 :=
  match vs with
  | [] => c
  | v :: vs' => burst127 (store127 c a v) (if a =? 0 then 0 else (a + 1) mod 128) vs'
  end.
Definition item127 (c : c127) (i : item) : c127 :=
  match i with
  | Tr x => match mosi x with a :: vs => if 128 <=? a then burst127 c (a - 128) vs else c | [] => c end
  | Do (HReset true) => Mk_c127 reset127 (c_fifo c) (c_acts c)
  | Do _ => c
  end.
Definition chip127 (c : c127) (its : list item) : c127 := fold_left item127 its c.
(** values read from a register, and bytes read from the FIFO (address 0) *)
Definition reads127 (a : Z) (its : list item) : list Z :=
  flat_map (fun i => match i with Tr ((b, _) :: x) => if b =? a then miso x else [] | _ => [] end) its.
Definition writes127 (a : Z) (its : list item) : list Z :=
  flat_map (fun i => match i with Tr ((b, _) :: x) => if b =? 128 + a then mosi x else [] | _ => [] end) its.
(** A working chip answers reads of RegOpMode (but for the mode bits, which it may
    change itself) and of RegModemConfig2 with what was written there (8 bits). *)
Definition answers127 (c0 : c127) (H : henv) : Prop := forall h its b o, transcript h = Some its ->
  let ask a := h_xfer H (h ++ [HSelect true; HXfer a b]) o in
  ask 1 / 8 = c_reg (chip127 c0 its) 1 / 8 mod 32 /\ ask 30 = c_reg (chip127 c0 its) 30 mod 256.

(** ** SX1261/2 *)
Record c126 := Mk_c126 {
  k_type : Z; k_freq : Z; k_pa : list Z; k_tx : Z; k_mod : list Z; k_pkt : list Z;
  k_base : Z; k_symb : Z; k_reg : Z -> Z; k_buf : Z -> Z; k_acts : list act }.
(** power-on values (registers: table 12-1); nothing is usable before it is set *)
Definition reset126 (acts : list act) : c126 :=
  Mk_c126 0 0 [] 0 [] [] 0 0 (fun a => if a =? 1846 then 13 else if a =? 1856 then 20 else if a =? 1857 then 36 else if a =? 2264 then 200 else if a =? 2279 then 24 else 0) (fun _ => -1) acts.
Definition nz (l : list Z) (i : nat) : Z := nth i l 0.
(** table 13-21 and section 15.2: the settings the data sheet gives an output power for *)
Definition dbm126 (pa : list Z) (tx clamp : Z) : option Z :=
  let p := if tx <? 128 then tx else tx - 256 in
  match pa with
  | [6; 0; 1; 1] => if p =? 14 then Some 150 else None
  | [4; 0; 1; 1] => if (-17 <=? p) && (p <=? 14) then Some (10 * p) else None
  | [4; 7; 0; 1] => if (-9 <=? p) && (p <=? 22) && (clamp / 2 mod 16 =? 15) then Some (10 * p) else None
  | _ => None
  end.
Definition khz126 (code : Z) : Z := if code =? 4 then 125 else if code =? 5 then 250 else if code =? 6 then 500 else 0.
(** section 15.4: bit 2 of register 0x736 must be 0 for inverted and 1 for standard IQ *)
Definition modem126 (c : c126) : modem :=
  let inv := nz (k_pkt c) 5 =? 1 in
  Mk_modem (k_type c =? 1) (k_freq c) (dbm126 (k_pa c) (k_tx c) (k_reg c 2264)) (nz (k_mod c) 0) (khz126 (nz (k_mod c) 1))
    (nz (k_mod c) 2) (nz (k_mod c) 3 =? 1) (nz (k_pkt c) 2 =? 1) (nz (k_pkt c) 4 =? 1)
    (if Bool.eqb (bit (k_reg c 1846) 2) inv then None else Some inv)
    (256 * nz (k_pkt c) 0 + nz (k_pkt c) 1)
    (let m := k_reg c 1856 in let l := k_reg c 1857 in if (m mod 16 =? 4) && (l mod 16 =? 4) then 16 * (m / 16) + l / 16 else -1).
Fixpoint fill (f : Z -> Z) (a : Z) (vs : list Z) : Z -> Z :=
  match vs with [] => f | v :: vs' => fill (put f a v) (a + 1) vs' end.
Fixpoint fill256 (f : Z -> Z) (a : Z) (vs : list Z) : Z -> Z :=
  match vs with [] => f | v :: vs' => fill256 (put f a v) ((a + 1) mod 256) vs' end.
Definition set_acts c a := Mk_c126 (k_type c) (k_freq c) (k_pa c) (k_tx c) (k_mod c) (k_pkt c) (k_base c) (k_symb c) (k_reg c) (k_buf c) (k_acts c ++ a).
(** A command takes effect when the window closes. A sleep without warm start (bit 2)
    loses the configuration, every sleep the buffer. *)
Definition cmd126 (c : c126) (bs : list Z) : c126 :=
  match bs with
  | 132 :: cfg :: _ =>
      if bit cfg 2 then Mk_c126 (k_type c) (k_freq c) (k_pa c) (k_tx c) (k_mod c) (k_pkt c) (k_base c) (k_symb c) (k_reg c) (fun _ => -1) (k_acts c)
      else reset126 (k_acts c)
  | [138; t] => Mk_c126 t (k_freq c) (k_pa c) (k_tx c) (k_mod c) (k_pkt c) (k_base c) (k_symb c) (k_reg c) (k_buf c) (k_acts c)
  | [134; a; b; d; e] => Mk_c126 (k_type c) (16777216 * a + 65536 * b + 256 * d + e) (k_pa c) (k_tx c) (k_mod c) (k_pkt c) (k_base c) (k_symb c) (k_reg c) (k_buf c) (k_acts c)
  | [149; a; b; d; e] => Mk_c126 (k_type c) (k_freq c) [a; b; d; e] (k_tx c) (k_mod c) (k_pkt c) (k_base c) (k_symb c) (k_reg c) (k_buf c) (k_acts c)
  | [142; p; _] => Mk_c126 (k_type c) (k_freq c) (k_pa c) p (k_mod c) (k_pkt c) (k_base c) (k_symb c) (k_reg c) (k_buf c) (k_acts c)
  | [139; a; b; d; e] => Mk_c126 (k_type c) (k_freq c) (k_pa c) (k_tx c) [a; b; d; e] (k_pkt c) (k_base c) (k_symb c) (k_reg c) (k_buf c) (k_acts c)
  | [140; a; b; d; e; f; g] => Mk_c126 (k_type c) (k_freq c) (k_pa c) (k_tx c) (k_mod c) [a; b; d; e; f; g] (k_base c) (k_symb c) (k_reg c) (k_buf c) (k_acts c)
  | [143; t; _] => Mk_c126 (k_type c) (k_freq c) (k_pa c) (k_tx c) (k_mod c) (k_pkt c) t (k_symb c) (k_reg c) (k_buf c) (k_acts c)
  | [160; n] => Mk_c126 (k_type c) (k_freq c) (k_pa c) (k_tx c) (k_mod c) (k_pkt c) (k_base c) n (k_reg c) (k_buf c) (k_acts c)
  | 13 :: m :: l :: vs => Mk_c126 (k_type c) (k_freq c) (k_pa c) (k_tx c) (k_mod c) (k_pkt c) (k_base c) (k_symb c) (fill (k_reg c) (256 * m + l) vs) (k_buf c) (k_acts c)
  | 14 :: off :: vs => Mk_c126 (k_type c) (k_freq c) (k_pa c) (k_tx c) (k_mod c) (k_pkt c) (k_base c) (k_symb c) (k_reg c) (fill256 (k_buf c) off vs) (k_acts c)
  | [131; _; _; _] => set_acts c [Air (modem126 c) (mem (k_buf c) (k_base c) (nz (k_pkt c) 3))]
  | [130; a; b; d] =>
      let t := 65536 * a + 256 * b + d in
      set_acts c [Listen (modem126 c) (if t =? 0 then Single else if t =? 16777215 then Continuous else Timed t) (k_symb c) (nz (k_pkt c) 3)]
  | _ => c
  end.
Definition item126 (c : c126) (i : item) : c126 :=
  match i with
  | Tr x => cmd126 c (mosi x)
  | Do (HReset true) => reset126 (k_acts c)
  | Do _ => c
  end.
Definition chip126 (c : c126) (its : list item) : c126 := fold_left item126 its c.
(** the answers to a status command, after the status byte *)
Definition answers126 (cmd : Z) (its : list item) : list Z :=
  flat_map (fun i => match i with Tr ((b, _) :: _ :: x) => if b =? cmd then miso x else [] | _ => [] end) its.
(** bytes read from the data buffer, with the offset they were read from *)
Definition buffer126 (its : list item) : list (Z * list Z) :=
  flat_map (fun i => match i with Tr ((30, _) :: (off, _) :: _ :: x) => [(off, miso x)] | _ => [] end) its.
Definition cleared126 (its : list item) : list Z :=
  flat_map (fun i => match i with Tr x => match mosi x with [2; a; b] => [256 * a + b] | _ => [] end | _ => [] end) its.

(** ** Bus protocol of the SX126x: section 8.3.1, 9.3, 13.1.1
    After reset or SetSleep the chip may not be addressed for 500 us and is woken by
    a GetStatus; after waking, and after every command, the host waits for BUSY to
    fall before the next one. SetSleep does not arm the wake-up by the timer (bit 0). *)
Inductive pw := InReset (long : bool) | Cold (ready : bool) | Waking | Awake (free : bool).
Definition pw_see (p : pw) (i : item) : option pw :=
  match i with
  | Do (HReset true) => Some (InReset false)
  | Do (HReset false) => match p with InReset true => Some (Cold false) | _ => None end
  | Do (HDelay us) => Some (match p with
      | InReset false => InReset (100 <=? us) | Cold false => Cold (500 <=? us) | _ => p end)
  | Do HWaitBusy => match p with Waking | Awake _ => Some (Awake true) | _ => None end
  | Do _ => Some p
  | Tr x =>
      match p with
      | Cold true => match mosi x with 192 :: _ => Some Waking | _ => None end
      | Awake true => match mosi x with 132 :: cfg => if bit (hd 0 cfg) 0 then None else Some (Cold false) | _ => Some (Awake false) end
      | _ => None
      end
  end.
Fixpoint pw_run (p : pw) (its : list item) : option pw :=
  match its with [] => Some p | i :: its' => match pw_see p i with Some p' => pw_run p' its' | None => None end end.

(** Reset of the SX1276 (section 7.2.2): NRESET active for 100 us at least, then 5 ms
    before the chip is used. *)
Inductive rs := RsLow (long : bool) | RsUp (ready : bool).
Definition rs_see (p : rs) (i : item) : option rs :=
  match i with
  | Do (HReset true) => Some (RsLow false)
  | Do (HReset false) => match p with RsLow true => Some (RsUp false) | _ => None end
  | Do (HDelay us) => Some (match p with RsLow false => RsLow (100 <=? us) | RsUp false => RsUp (5000 <=? us) | _ => p end)
  | Do _ => Some p
  | Tr _ => match p with RsUp true => Some p | _ => None end
  end.
Fixpoint rs_run (p : rs) (its : list item) : option rs :=
  match its with [] => Some p | i :: its' => match rs_see p i with Some p' => rs_run p' its' | None => None end end.
