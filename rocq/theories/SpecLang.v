(** SpecLang.v -- what may be said to the chips (C101). Written from memory of the data sheets:
    no copy was at hand, so these tables are trusted, see DESIGN.md. *)
From Verif Require Export SpecIrq.

Definition byteb (b : Z) : bool := (0 <=? b) && (b <=? 255).
Definition within (lo hi v : Z) : bool := (lo <=? v) && (v <=? hi).
(** ** SX1261/2 *)
(** documented registers, as first and last address *)
Definition regs126_table : list (Z * Z) :=
  [(1408, 1413); (1720, 1727); (1728, 1735); (1741, 1742); (1795, 1795); (1846, 1846); (1856, 1857); (2073, 2076); (2185, 2185); (2220, 2220); (2264, 2264); (2279, 2279); (2306, 2306); (2321, 2322); (2336, 2336); (2372, 2372)].
Definition at126 (a n : Z) : bool := (1 <=? n) && existsb (fun r => (fst r <=? a) && (a + n - 1 <=? snd r)) regs126_table.
Definition signed8 (b : Z) : Z := if b <? 128 then b else b - 256.
(** Opcode, number and range of the parameters. [hp]: the SX1262. While
    the chip answers, the bytes sent to it do not matter; only their number is looked at. *)
Definition speaks126 (hp : bool) (bs : list Z) : bool :=
  match bs with
  | [192; _] => true                                                     (* GetStatus *)
  | [128; m] => within 0 1 m                                             (* SetStandby *)
  | [132; c] => within 0 7 c && negb (bit c 1)                           (* SetSleep; bits 7-3 and 1 reserved *)
  | [130; a; b; c] | [131; a; b; c] => byteb a && byteb b && byteb c     (* SetRx, SetTx *)
  | [7; 0; 0] => true                                                    (* ClearDeviceErrors *)
  | [151; v; a; b; c] => within 0 7 v && byteb a && byteb b && byteb c   (* SetDIO3AsTcxoCtrl *)
  | [137; m] => within 0 127 m                                           (* Calibrate *)
  | [152; a; b] => existsb (fun p => (a =? fst p) && (b =? snd p)) [(107, 111); (117, 129); (193, 197); (215, 219); (225, 233)]  (* CalibrateImage *)
  | [150; m] => within 0 1 m                                             (* SetRegulatorMode *)
  | [149; d; m; s; l] => within 0 7 d && within 0 7 m && (s =? if hp then 0 else 1) && (l =? 1)  (* SetPaConfig *)
  | [142; p; r] => byteb p && (if hp then within (-9) 22 (signed8 p) else within (-17) 14 (signed8 p)) && within 0 7 r  (* SetTxParams *)
  | [138; t] => within 0 1 t || (t =? 3)                                 (* SetPacketType *)
  | [134; a; b; c; d] => forallb byteb [a; b; c; d]                      (* SetRfFrequency *)
  | [139; sf; bw; cr; l] => within 5 12 sf && within 4 6 bw && within 1 4 cr && within 0 1 l  (* SetModulationParams, LoRa, 125 to 500 kHz *)
  | [140; a; b; h; n; c; q] => byteb a && byteb b && negb (256 * a + b =? 0) && within 0 1 h && byteb n && within 0 1 c && within 0 1 q  (* SetPacketParams, preamble 1 to 65535 *)
  | [143; a; b] => byteb a && byteb b                                    (* SetBufferBaseAddress *)
  | [160; n] => byteb n                                                  (* SetLoRaSymbNumTimeout *)
  | [8; a; b; c; d; e; f; g; h] => forallb byteb [a; b; c; d; e; f; g; h] (* SetDioIrqParams *)
  | [2; a; b] => byteb a && byteb b                                      (* ClearIrqStatus *)
  | [18; _; _; _] | [19; _; _; _] | [23; _; _; _] | [20; _; _; _; _] => true  (* GetIrqStatus, GetRxBufferStatus, GetDeviceErrors, GetPacketStatus *)
  | 13 :: a :: b :: vs => byteb a && byteb b && at126 (256 * a + b) (len vs) && forallb byteb vs  (* WriteRegister *)
  | 29 :: a :: b :: _ :: vs => byteb a && byteb b && at126 (256 * a + b) (len vs)  (* ReadRegister *)
  | 14 :: off :: vs => byteb off && forallb byteb vs && (off + len vs <=? 256)  (* WriteBuffer *)
  | 30 :: off :: _ :: _ => byteb off                                     (* ReadBuffer *)
  | _ => false
  end.
(** ** SX1276 *)
(** registers of the LoRa page that can be written, and those that can only be
    read; 59 (0x3b) is also RegImageCal of the FSK page *)
Definition rw127 : list Z := [0; 1; 6; 7; 8; 9; 10; 11; 12; 13; 14; 15; 17; 18; 29; 30; 31; 32; 33; 34; 35; 36; 38; 47; 48; 49; 51; 54; 55; 57; 58; 59; 64; 65; 75; 77; 91; 97; 98; 99; 100; 112].
Definition ro127 : list Z := [16; 19; 20; 21; 22; 23; 24; 25; 26; 27; 28; 37; 40; 41; 42; 44; 66].
Definition known (l : list Z) (a : Z) : bool := existsb (Z.eqb a) l.
(** the values of single-byte registers, where reserved bits or a range are given *)
Definition value127 (a v : Z) : bool :=
  byteb v && if a =? 10 then within 0 15 v                               (* PaRamp: bits 7-5 unused, 4 reserved *)
  else if a =? 12 then negb (bit v 2) && within 1 6 (v / 32)             (* Lna: gain G1 to G6 *)
  else if a =? 29 then within 0 9 (v / 16) && within 1 4 (v / 2 mod 8)   (* bandwidth, coding rate *)
  else if a =? 30 then within 6 12 (v / 16)                              (* spreading factor *)
  else if a =? 38 then (v / 16 =? 0) && (v mod 4 =? 0)                   (* ModemConfig3 *)
  else if a =? 51 then (v / 2 mod 32 =? 19) && negb (bit v 7)            (* InvertIQ *)
  else true.
(** a burst: the FIFO takes any number of bytes, registers one after the other *)
Fixpoint burst_ok (a : Z) (vs : list Z) : bool := match vs with [] => true | v :: r => known rw127 a && value127 a v && burst_ok (a + 1) r end.
Definition speaks127 (bs : list Z) : bool :=
  match bs with
  | a :: vs =>
      if a =? 128 then forallb byteb vs && (len vs <=? 256)
      else if 128 <=? a then (1 <=? len vs) && burst_ok (a - 128) vs
      else if a =? 0 then true
      else (len vs =? 1) && (known rw127 a || known ro127 a)
  | [] => false
  end.
(** ** The callers' part *)
(** an oscillator voltage that exists, and a packet with a preamble *)
Definition volts_ok (o : rop) : Prop := match o with PInit _ d => Sx126x.use_tcxo d = true -> Sx126x.tcxo_voltage d <= 7 | _ => True end.
Definition preamble_ok (w : want) (o : rop) : Prop := match o with PTx _ | PRx _ _ _ | PRand => exists p, w_par w = Some p /\ 1 <= p_preamble_len p | _ => True end.
(** SX1276: what the chip answers for ModemConfig2 names a spreading factor *)
Definition sf_answer (x : list (Z * Z)) : Prop := match x with [(30, _); (_, v)] => within 6 12 (v / 16) = true | _ => True end.
