(** SpecOwn.v -- which settings of a radio chip belong to which driver call (C91), and
    the detector settings of the SX1276 (C51), from the data sheets *)
From Verif Require Export SpecFront.

(** ** SX1276, table 41
    1 RegOpMode, 6-8 RegFrf, 9 RegPaConfig, 13-14 FIFO pointers, 17 RegIrqFlagsMask, 18
    RegIrqFlags, 29-30 and 38 RegModemConfig1-3, 31 RegSymbTimeoutLsb, 34 RegPayloadLength,
    35 RegMaxPayloadLength, 51 and 59 RegInvertIQ, 54 and 58 high bandwidth optimisation,
    57 RegSyncWord, 64 RegDioMapping1 *)
Definition own127 (o : rop) : list Z :=
  match o with
  | PSleep => [1]
  | PFreq _ => [6; 7; 8]
  | PPower _ => [9]
  | PPublic _ => [57]
  | PSetup _ => [1; 29; 30; 38; 51; 59]
  | PTx _ => [1; 13; 14; 17; 34; 64]
  | PRx _ _ _ => [1; 13; 14; 17; 30; 31; 35; 54; 58; 64]
  | PRead _ => [13]
  | PRand => [1; 17]
  | PIrq => [18]
  | PInit _ _ | PHandler _ => []
  end.
(** what init changes after the reset: also 10 RegPaRamp and 12 RegLna *)
Definition own127_init : list Z := [1; 6; 7; 8; 10; 12; 57; 59].
(** Section 4.1.1.2: the detector is set by spreading factor, RegDetectOptimize (49) to 5
    for SF6 and 3 for the others, RegDetectionThreshold (55) to 12 and 10. *)
Definition detects127 (sf : Z) (r : Z -> Z) : Prop := r 49 mod 8 = (if sf =? 6 then 5 else 3) /\ r 55 = (if sf =? 6 then 12 else 10).

(** ** SX1261/2: the settings made by commands, registers apart *)
Inductive field := KType | KFreq | KPa | KMod | KPkt | KBase | KSymb | KBuf.
Definition kept126 (c c' : c126) (f : field) : Prop :=
  match f with
  | KType => k_type c' = k_type c
  | KFreq => k_freq c' = k_freq c
  | KPa => k_pa c' = k_pa c /\ k_tx c' = k_tx c
  | KMod => k_mod c' = k_mod c
  | KPkt => k_pkt c' = k_pkt c
  | KBase => k_base c' = k_base c
  | KSymb => k_symb c' = k_symb c
  | KBuf => k_buf c' = k_buf c
  end.
Definition own126 (o : rop) : list field :=
  match o with
  | PSleep => [KBuf]
  | PFreq _ => [KFreq]
  | PPower _ => [KPa]
  | PSetup _ => [KMod]
  | PTx _ => [KPkt; KBase; KBuf]
  | PRx _ _ _ => [KPkt; KBase; KSymb]
  | PRand => [KPkt; KBase; KSymb; KBuf]
  | PPublic _ | PRead _ | PIrq | PInit _ _ | PHandler _ => []
  end.
(** the bits of a register that a call may change: the IQ polarity (0x736, section 15.4), the
    clamping threshold (0x8d8, section 15.2), the over-current limit (0x8e7) and the sync word *)
Definition own126_bit (o : rop) (a i : Z) : bool :=
  match o with
  | PPower _ => (a =? 2264) && (1 <=? i) && (i <=? 4) || (a =? 2279)
  | PPublic _ => (a =? 1856) || (a =? 1857)
  | PTx _ | PRx _ _ _ | PRand => (a =? 1846) && (i =? 2)
  | _ => false
  end.
(** The chip answered every ReadRegister of the two registers that hold other settings too
    with what they hold. *)
Definition honest126_item (c : c126) (i : item) : bool :=
  forallb (fun av : Z * list Z => let (a, vs) := av in negb ((a =? 1846) || (a =? 2264)) || match vs with [v] => v =? k_reg c a | _ => true end) (regs126 [i]).
Fixpoint honest126 (c : c126) (its : list item) : bool :=
  match its with [] => true | i :: its' => honest126_item c i && honest126 (item126 c i) its' end.
