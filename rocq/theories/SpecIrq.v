(** SpecIrq.v -- interrupt pins, start-up and random numbers of the radio chips: the
    vocabulary of C71 to C73, from the data sheets *)
From Verif Require Export SpecBoard.

(** ** Radio events a chip reports on its pins *)
Record pins := Mk_pins { on_tx : bool; on_rx : bool; on_timeout : bool; on_crc : bool; on_other : bool }.
(** what the caller needs: TxDone while transmitting; RxDone, RxTimeout and CRC errors
    while receiving; nothing while rand() listens to noise *)
Definition pins_tx : pins := Mk_pins true false false false false.
Definition pins_rx : pins := Mk_pins false true true true false.
Definition pins_none : pins := Mk_pins false false false false false.
(** SX1276 (data sheet section 4.1.2.4 and tables 18, 41): an event is signalled if its
    bit in RegIrqFlagsMask is 0 and RegDioMapping1 puts it on a pin (DIO0: 00 RxDone,
    01 TxDone; DIO1: 00 RxTimeout; DIO3: 10 PayloadCrcError). *)
Definition pins127 (r : Z -> Z) : pins :=
  let free n := negb (bit (r 17) n) in
  Mk_pins (free 3 && (r 64 / 64 mod 4 =? 1)) (free 6 && (r 64 / 64 mod 4 =? 0)) (free 7 && (r 64 / 16 mod 4 =? 0)) (free 5 && (r 64 mod 4 =? 2))
    (free 0 || free 1 || free 2 || free 4).
(** the last of the calls tx, rx and rand decides; init (a chip reset) leaves it open *)
Definition armed (tr : list rentry) : option pins :=
  fold_left (fun u t => match fst (fst t) with PTx _ => Some pins_tx | PRx _ _ _ => Some pins_rx | PRand => Some pins_none | PInit _ _ => None | _ => u end) tr None.
(** The pins are set up in [its], and only afterwards the chip starts anything. *)
Definition armed_first (p : pins) (get : list item -> pins) (acts : list item -> list act) (hi its : list item) : Prop :=
  exists a b, its = a ++ b /\ acts (hi ++ a) = acts hi /\ get (hi ++ a) = p.
(** SX1261/2 (section 13.3.1): SetDioIrqParams gives the events enabled and those on
    DIO1, DIO2, DIO3; kept over a warm sleep, lost by a cold one and by reset *)
Definition dio_see (u : option (Z * Z * Z * Z)) (i : item) : option (Z * Z * Z * Z) :=
  match i with
  | Tr x => match mosi x with
      | [8; a; b; c; d; e; f; g; h] => Some (256 * a + b, 256 * c + d, 256 * e + f, 256 * g + h)
      | 132 :: w :: _ => if bit w 2 then u else None
      | _ => u
      end
  | Do (HReset true) => None
  | Do _ => u
  end.
Definition dio126 (its : list item) : option (Z * Z * Z * Z) := fold_left dio_see its None.
(** table 13-29: TxDone bit 0, RxDone 1, CrcErr 6, Timeout 9 *)
Definition all_events : Z := 2 ^ 0 + 2 ^ 1 + 2 ^ 6 + 2 ^ 9.

(** ** Start-up *)
(** init is the first call of the program or is called again later *)
Definition inits127 (H : henv) (h : list hev) (s : Sx127x.d127) : Prop := h = [] /\ s = Sx127x.d127_0 \/ exists tr, used127 H tr h s.
Definition inits126 (H : henv) (h : list hev) (s : Sx126x.d126) : Prop := h = [] /\ s = Sx126x.d126_0 \/ exists tr, used126 H tr h s.
(** The calibration of the SX1276 runs in FSK standby (section 4.2.3.8): started by bit 6
    of RegImageCal, bit 5 is 1 while it runs. *)
Definition calibrates (c : c127) : Prop := c_reg c 1 mod 8 = 1 /\ bit (c_reg c 1) 7 = false /\ carrier 19 868800000 (modem127 (c_reg c)).
(** the start-up commands of the SX1261/2, in order: ClearDeviceErrors 7, SetDio3AsTcxoCtrl
    151, Calibrate 137, GetDeviceErrors 23, SetRegulatorMode 150, SetPacketType 138 *)
Definition startup (its : list item) : list (list Z) :=
  flat_map (fun i => match i with
    | Tr x => match mosi x with 23 :: _ => [[23]] | c :: r => if existsb (Z.eqb c) [7; 151; 137; 150; 138] then [c :: r] else [] | [] => [] end
    | Do _ => [] end) its.
(** the big-endian bytes of a 24-bit number *)
Definition be24 (n : Z) : list Z := [n / 65536; n / 256 mod 256; n mod 256].

(** ** Random numbers *)
Fixpoint from_bits (bs : list bool) : Z := match bs with [] => 0 | b :: bs' => b2z b + 2 * from_bits bs' end.
Fixpoint from_bytes (bs : list Z) : Z := match bs with [] => 0 | b :: bs' => b + 256 * from_bytes bs' end.
(** registers read from an SX1261/2: first address and values *)
Definition regs126 (its : list item) : list (Z * list Z) :=
  flat_map (fun i => match i with Tr ((29, _) :: (m, _) :: (l, _) :: _ :: x) => [(256 * m + l, miso x)] | _ => [] end) its.
