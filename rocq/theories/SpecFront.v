(** SpecFront.v -- analog settings of the radio chips: the vocabulary of C74, from the
    data sheets and the SX1276 errata note *)
From Verif Require Export SpecIrq.

(** ** SX1276 *)
(** RegModemConfig3 bit 2: the receiver gain is set by the AGC loop *)
Definition agc127 (r : Z -> Z) : bool := bit (r 38) 2.
(** Errata note section 2.1: registers 0x36 and 0x3a for the best sensitivity, by
    bandwidth and carrier (0x3a is left to the chip when 0x36 is 3) *)
Definition sensitive127 (khz f : Z) (r : Z -> Z) : Prop :=
  if (khz =? 500) && (862000000 <=? f) && (f <=? 1020000000) then r 54 = 2 /\ r 58 = 100
  else if (khz =? 500) && (410000000 <=? f) && (f <=? 525000000) then r 54 = 2 /\ r 58 = 127
  else r 54 = 3.
(** every read of register [a] comes directly after a delay of a millisecond at least *)
Fixpoint paced (a waited : Z) (its : list item) : bool :=
  match its with
  | [] => true
  | Do (HDelay us) :: its' => paced a us its'
  | Do _ :: its' => paced a 0 its'
  | Tr x :: its' => (match x with (b, _) :: _ => if b =? a then 1000 <=? waited else true | [] => true end) && paced a 0 its'
  end.

(** ** SX1261/2 *)
(** the frequencies of the last image calibration, in steps of 4 MHz (section 9.2.1); the
    over-current limit in steps of 2.5 mA (register 0x8e7; every SetPaConfig sets it to the
    default of the amplifier selected, 60 mA or 140 mA, section 5.3); the ramp time code
    (SetTxParams); the crystal trim (register 0x911) *)
Record front := Mk_front { f_image : option (Z * Z); f_ocp : option Z; f_ramp : option Z; f_trim : option Z }.
Definition front0 : front := Mk_front None None None None.
Definition front_cmd (u : front) (bs : list Z) : front :=
  match bs with
  | [152; a; b] => Mk_front (Some (a, b)) (f_ocp u) (f_ramp u) (f_trim u)
  | [149; _; _; dev; _] => Mk_front (f_image u) (Some (if dev =? 1 then 24 else 56)) (f_ramp u) (f_trim u)
  | [142; _; r] => Mk_front (f_image u) (f_ocp u) (Some r) (f_trim u)
  | [13; 8; 231; v] => Mk_front (f_image u) (Some v) (f_ramp u) (f_trim u)
  | [13; 9; 17; v] => Mk_front (f_image u) (f_ocp u) (f_ramp u) (Some v)
  | 132 :: w :: _ => if bit w 2 then u else front0
  | _ => u
  end.
Definition front_see (u : front) (i : item) : front :=
  match i with Tr x => front_cmd u (mosi x) | Do (HReset true) => front0 | Do _ => u end.
Definition front126 (its : list item) : front := fold_left front_see its front0.
(** the image calibration covers the carrier *)
Definition image_ok (f : Z) (u : front) : Prop := exists a b, f_image u = Some (a, b) /\ 4000000 * a <= f <= 4000000 * b.
(** the board has a TCXO, as told to the last init *)
Definition tcxo (tr : list rentry) : bool :=
  fold_left (fun u t => match fst (fst t) with PInit _ d => Sx126x.use_tcxo d | _ => u end) tr false.
