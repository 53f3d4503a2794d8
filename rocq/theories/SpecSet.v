(** SpecSet.v -- vocabulary for interrupted settings (C99) *)
From Verif Require Export SpecIsr Preempt2.

(** no interrupt reports the end of a receive window (flag 1) *)
Definition no_timeout (ops : list op) : Prop := Forall (fun o => match o with OIrq m => Z.land m 1 = 0 | _ => True end) ops.
(** the setting was taken over *)
Definition took (v : val) : bool := match v with VUnit | VErr ERR_NO | VBool true => true | _ => false end.
(** the call [o] returns first and the interrupts of [ops] are served then; if the setting is
    refused they have not happened *)
Definition served_then (E : env) (ops : list op) (w : world) (o : op) (v : val) (es : list ev) (w2 : world) : Prop :=
  exists es1 w1 tr, step E w o = Some (v, es1, w1) /\ exec E w1 (if took v then ops else []) tr w2 /\ es = es1 ++ all_evs tr.
(** the interrupts are served first, then the call is made *)
Definition served_first (E : env) (ops : list op) (w : world) (o : op) (v : val) (es : list ev) (w2 : world) : Prop :=
  exists tr w1 es1, exec E w ops tr w1 /\ step E w1 o = Some (v, es1, w2) /\ es = all_evs tr ++ es1.
