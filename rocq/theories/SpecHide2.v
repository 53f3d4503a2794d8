(** SpecHide2.v -- executions with interrupted calls and handlers that call back (C102) *)
From Verif Require Export SpecHide Preempt2.

(** A call, a call or setting in which interrupts strike (Preempt.v, Preempt2.v), or a radio
    interrupt whose handlers call the API (Reent.v). *)
Inductive job :=
| JCall (o : op)
| JStruck (I : strikes) (o : op)
| JSetStruck (I : strikes) (o : op)
| JReact (R : reaction) (m : Z).
Definition does (E : env) (w : world) (j : job) : option (val * list ev * world) :=
  match j with
  | JCall o => step E w o
  | JStruck x o => step_isr E x w o
  | JSetStruck x o => step_set_isr E x w o
  | JReact R m => match irq_re E R w m with Some (es, w') => Some (VUnit, es, w') | None => None end
  end.
Inductive works (E : env) : world -> list job -> list (val * list ev) -> world -> Prop :=
| works_nil w : works E w [] [] w
| works_cons w j js v es w1 tr w2 : does E w j = Some (v, es, w1) -> works E w1 js tr w2 -> works E w (j :: js) ((v, es) :: tr) w2.
(** the same interrupts, and handlers that make the same calls whatever the keys *)
Definition same_strikes (ak sk : list Z -> list Z -> Prop) (I I' : strikes) : Prop := forall n, Forall2 (same_call ak sk) (I n) (I' n).
Definition same_reaction (ak sk : list Z -> list Z -> Prop) (R R' : reaction) : Prop :=
  forall h h', hidden h = hidden h' -> Forall2 (same_call ak sk) (R h) (R' h').
Inductive same_job (ak sk : list Z -> list Z -> Prop) : job -> job -> Prop :=
| same_jcall o o' : same_call ak sk o o' -> same_job ak sk (JCall o) (JCall o')
| same_struck I I' o o' : same_strikes ak sk I I' -> same_call ak sk o o' -> same_job ak sk (JStruck I o) (JStruck I' o')
| same_set I I' o o' : same_strikes ak sk I I' -> same_call ak sk o o' -> same_job ak sk (JSetStruck I o) (JSetStruck I' o')
| same_react R R' m : same_reaction ak sk R R' -> same_job ak sk (JReact R m) (JReact R' m).
Definition same_shown (t t' : val * list ev) : Prop := fst t = fst t' /\ hidden (snd t) = hidden (snd t').
