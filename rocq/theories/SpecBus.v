(** SpecBus.v -- when the radio chip may interrupt (C100) *)
From Verif Require Export SpecTx SpecSys.

(** the interrupts that end what the radio was asked for: TxDone; RxDone or RxTimeout *)
Definition ends (r : radio_op) (m : Z) : bool := match r with Op_tx => Z.testbit m 2 | Op_rx => Z.testbit m 0 || Z.testbit m 1 end.
(** What the radio is doing and which timers run, after the calls and events of a run. An
    operation is on from tx() or rx() until the interrupt that ends it, sleep() or rand()
    (which sleeps at the end, C73). *)
Definition landed (x : due) : due := Mk_due (due_t1 x) (due_t2 x) None.
Definition air_op (x : due) (o : op) : due :=
  match o with
  | OTimer t => set_timer t false x
  | OIrq m => match due_radio x with Some r => if ends r m then landed x else x | None => x end
  | _ => x
  end.
Definition air_ev (x : due) (e : ev) : due := match e with RRand _ => landed x | _ => due_ev x e end.
Definition air_step (x : due) (t : entry) : due := fold_left air_ev (snd t) (air_op x (fst (fst t))).
Definition air_of (tr : list entry) : due := fold_left air_step tr nothing.
(** a timer fires only while it runs *)
Definition fires (x : due) (o : op) : Prop := match o with OTimer TIMER_RX1 => due_t1 x = true | OTimer TIMER_RX2 => due_t2 x = true | _ => True end.
Definition timely (tr : list entry) : Prop := forall a t b, tr = a ++ t :: b -> fires (air_of a) (fst (fst t)).
Definition starts_radio (e : ev) : bool := match e with RTx _ | RRx _ _ _ => true | _ => false end.
