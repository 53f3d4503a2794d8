(** SpecHide.v -- runs that differ only in the secret keys (C102) *)
From Verif Require Export SpecKey.

(** An external call with the key left out *)
Definition hide (e : ev) : ev :=
  match e with CAesNew _ => CAesNew [] | CCmacNew _ => CCmacNew [] | _ => e end.
Definition hidden (es : list ev) : list ev := map hide es.
(** The radio, the board and the application answer without looking at the keys handed to
    the crypto functions. *)
Record keyblind (E : env) : Prop := Mk_keyblind {
  kb_rand : forall h h', hidden h = hidden h' -> e_rand E h = e_rand E h';
  kb_radio : forall h h', hidden h = hidden h' -> e_radio_rand E h = e_radio_rand E h';
  kb_pkt : forall h h', hidden h = hidden h' -> e_pkt E h = e_pkt E h';
  kb_battery : forall h h', hidden h = hidden h' -> e_battery E h = e_battery E h';
  kb_devtime : forall h h', hidden h = hidden h' -> e_devtime E h = e_devtime E h';
  kb_unixtime : forall h h', hidden h = hidden h' -> e_unixtime E h = e_unixtime E h'
}.
(** The key [k'] does under [aes], [cmac] what [k] does in [E]. *)
Definition acts_like (E : env) (aes cmac : list Z -> list Z -> list Z) (k k' : list Z) : Prop :=
  length k = 16%nat /\ length k' = 16%nat /\ (forall b, aes k' b = e_aes E k b) /\ (forall m, cmac k' m = e_cmac E k m).
(** [x] is a session key derived from the AppKey [k]: the nonces and the NetID make up
    [n] (LoRaWAN 6.2.5). *)
Definition derived (E : env) (k x : list Z) : Prop :=
  exists t n, (t = 1 \/ t = 2) /\ length n = 8%nat /\ x = e_aes E k ([t] ++ n ++ repeat 0 7).
(** [ak]: which AppKeys stand for each other, [sk]: which session keys do. Keys that
    are zero or that the device derives stand for themselves. *)
Record pairing (E : env) (aes cmac : list Z -> list Z -> list Z) (ak sk : list Z -> list Z -> Prop) : Prop := Mk_pairing {
  pr_app : forall k k', ak k k' -> acts_like E aes cmac k k';
  pr_ses : forall k k', sk k k' -> acts_like E aes cmac k k';
  pr_app0 : ak (repeat 0 16) (repeat 0 16);
  pr_ses0 : sk (repeat 0 16) (repeat 0 16);
  pr_derived : forall k k' x, ak k k' -> derived E k x -> sk x x
}.
(** the same call with other keys *)
Inductive same_call (ak sk : list Z -> list Z -> Prop) : op -> op -> Prop :=
| same_otaa d a k k' : ak k k' -> same_call ak sk (OSetOtaa d a k) (OSetOtaa d a k')
| same_session a u d n n' p p' : sk n n' -> sk p p' -> same_call ak sk (OSetSession a u d n p) (OSetSession a u d n' p')
| same_other o : match o with OSetOtaa _ _ _ | OSetSession _ _ _ _ _ => False | _ => True end -> same_call ak sk o o.
(** the same result and the same external calls, apart from the keys *)
Definition same_seen (t t' : entry) : Prop :=
  match t, t' with (_, v, es), (_, v', es') => v = v' /\ hidden es = hidden es' end.
(** what the device remembers besides the keys *)
Definition keyless (w : world) : st :=
  on_stk (set_uw_app_key []) (on_ses (fun x => set_app_s_key [] (set_nwk_s_key [] x)) (w_st w)).
