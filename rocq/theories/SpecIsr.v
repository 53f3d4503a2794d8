(** SpecIsr.v -- vocabulary for interrupted calls (C93) *)
From Verif Require Export SpecApi Preempt.

(** only radio interrupts and timers strike *)
Definition hw (o : op) : Prop := match o with OIrq _ | OTimer _ => True | _ => False end.
Definition hw_only (I : strikes) : Prop := forall n, Forall hw (I n).
(** none of them reports the end of a transmission (flag 4), none a packet (flag 2) *)
Definition no_tx_done (ops : list op) : Prop := Forall (fun o => match o with OIrq m => Z.land m 4 = 0 | _ => True end) ops.
Definition no_rx_done (ops : list op) : Prop := Forall (fun o => match o with OIrq m => Z.land m 2 = 0 | _ => True end) ops.

(** what happens when the call [o] returns first and the interrupts of [ops] are served then;
    if the call is refused they have not happened *)
Definition served_after (E : env) (ops : list op) (w : world) (o : op) (v : val) (es : list ev) (w2 : world) : Prop :=
  exists es1 w1 tr, step E w o = Some (v, es1, w1) /\
    exec E w1 (match v with VErr ERR_NO => ops | _ => [] end) tr w2 /\ es = es1 ++ all_evs tr.

(** would uwan_mac_link_check_req find room now? *)
Definition has_room (E : env) (w : world) : Prop := exists es w', step E w OLinkCheckReq = Some (VBool true, es, w').
Definition no_room (E : env) (w : world) : Prop := exists es w', step E w OLinkCheckReq = Some (VBool false, es, w').
