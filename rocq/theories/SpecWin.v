(** SpecWin.v -- vocabulary of the statements about transactions, receive windows
    and crypto contexts. *)
From Verif Require Export SpecCmd.

(** the calls to the radio, the timers, the clock and the application callback *)
Definition is_link (e : ev) : bool :=
  match e with
  | RSetFreq _ | RSetup _ | RSetPower _ | RTx _ | RRx _ _ _ | RRead _ | RSleep
  | TStart _ _ | TStop _ | CbDown _ _ _ | MGetTime _ => true
  | _ => false
  end.
Definition link (es : list ev) : list ev := filter is_link es.

(** ** Crypto contexts: at most one AES and one CMAC context, used only while
    open; a CMAC is finished exactly once, after its last update *)
Inductive cmac_state := CM_none | CM_open | CM_finished.
Definition crypto_step (x : bool * cmac_state) (e : ev) : option (bool * cmac_state) :=
  let '(a, c) := x in
  match e, a, c with
  | CAesNew _, false, c => Some (true, c)
  | CAesEnc b, true, c => if (length b =? 16)%nat then Some (true, c) else None
  | CAesDel, true, c => Some (false, c)
  | CCmacNew _, a, CM_none => Some (a, CM_open)
  | CCmacUpd _, a, CM_open => Some (a, CM_open)
  | CCmacFin, a, CM_open => Some (a, CM_finished)
  | CCmacDel, a, CM_finished => Some (a, CM_none)
  | (CAesNew _ | CAesEnc _ | CAesDel | CCmacNew _ | CCmacUpd _ | CCmacFin | CCmacDel), _, _ => None
  | _, a, c => Some (a, c)
  end.
Fixpoint crypto_run (x : bool * cmac_state) (es : list ev) : option (bool * cmac_state) :=
  match es with
  | [] => Some x
  | e :: es' => match crypto_step x e with Some y => crypto_run y es' | None => None end
  end.
Definition crypto_balanced (es : list ev) : Prop := crypto_run (false, CM_none) es = Some (false, CM_none).

(** ** Device time and handlers, as seen from outside *)
(** local times sampled from the application *)
Definition times (es : list ev) : list Z := flat_map (fun e => match e with MGetTime t => [t] | _ => [] end) es.
(** end of a transmission: the RX1 timer is started *)
Definition tx_ended (es : list ev) : bool := existsb (fun e => match e with TStart TIMER_RX1 _ => true | _ => false end) es.
(** the last sample taken in an execution from power-on *)
Definition last_time (tr : list entry) : Z := last (times (all_evs tr)) 0.
(** a device time request is waiting for the end of a transmission *)
Definition pending_step (b : bool) (t : entry) : bool :=
  match t with
  | (OInit _, _, _) => false
  | (ODevTimeReq, VBool r, _) => r
  | (_, _, es) => if tx_ended es then false else b
  end.
Definition time_pending (tr : list entry) : bool := fold_left pending_step tr false.
(** the MAC handlers last given *)
Definition handlers_step (c : option mac_callbacks) (t : entry) : option mac_callbacks :=
  match t with (OSetHandlers c', _, _) => c' | _ => c end.
Definition handlers (tr : list entry) : option mac_callbacks := fold_left handlers_step tr None.
