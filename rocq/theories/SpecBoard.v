(** SpecBoard.v -- the board's hooks around the radio chip: reset line, antenna switch,
    interrupt pins *)
From Verif Require Export SpecDrv.

(** the hooks given to the last init *)
Definition hal_of (tr : list rentry) : option hal_opts :=
  fold_left (fun u t => match fst (fst t) with PInit hal _ => Some hal | _ => u end) tr None.
(** calls of the hooks (delays, waiting for BUSY and the event handler are no hooks) *)
Definition board (its : list item) : list hev :=
  filter (fun e => match e with HReset _ | HIoInit | HIoDeinit | HAnt _ => true | _ => false end) (calls its).
(** The antenna is switched (true: to the receiver) in [its], and only afterwards the
    chip does anything new; [acts] gives what it did up to some point. *)
Definition switched_first (rx : bool) (acts : list item -> list act) (hi its : list item) : Prop :=
  exists a b, its = a ++ Do (HAnt rx) :: b /\ acts (hi ++ a) = acts hi.
