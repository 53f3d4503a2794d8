(** SpecAdr.v -- vocabulary of the statements about adaptive data rate. *)
From Verif Require Export SpecCfg.

(** a frame carries a LinkADRReq *)
Definition asks_adr (p : list Z) : bool :=
  existsb (fun c => match c with LinkADRReq _ _ _ _ _ => true | _ => false end) (mac_parse (fr_fopts p)).
(** a frame was handed to the application without error *)
Definition handed_ok (es : list ev) : bool :=
  existsb (fun c => match c with (ERR_NO, _, _) => true | _ => false end) (callbacks es).
(** the application or the network sets the data rate, the ADR parameters or the session *)
Definition adr_entry (t : entry) : bool :=
  match t with
  | (OInit _, _, _) | (OSetSession _ _ _ _ _, _, _) | (OSetDr _, _, _) | (OAdrEnable _, _, _) | (OAdrSetup _ _, _, _) => true
  | (_, _, es) => handed_ok es || existsb asks_adr (reads es)
  end.
(** the count of uplinks without downlink starts afresh *)
Definition restarts (w : world) (t : entry) : bool :=
  match t with
  | (OAdrEnable _, _, _) => true
  | (OIrq _, _, es) => negb (joining w) && handed_ok es
  | _ => false
  end.
Definition is_data_uplink (t : entry) : bool := match data_frames [t] with [] => false | _ => true end.
(** [counted E tr w n]: in the run [tr] from power-on to [w], [n] data uplinks were
    sent since the last delivered data downlink, back-off step or uwan_adr_enable *)
Inductive counted (E : env) : list entry -> world -> Z -> Prop :=
| counted_0 : counted E [] world0 0
| counted_S tr w n o v es w' : counted E tr w n -> op_wf o -> step E w o = Some (v, es, w') ->
    counted E (tr ++ [(o, v, es)]) w'
      (if restarts w (o, v, es) then 0
       else if is_data_uplink (o, v, es) then (if ses_dr (ses w') =? ses_dr (ses w) then n + 1 else 0)
       else n).
(** ADR parameters *)
Definition adr_limit (w : world) : Z := ack_limit (s_adr (w_st w)).
Definition adr_delay (w : world) : Z := ack_delay (s_adr (w_st w)).
(** FCtrl bits of an uplink: ADR and ADRACKReq (LoRaWAN 1.0.3, 4.3.1) *)
Definition fr_adr (p : list Z) : bool := Z.testbit (at_ p 5) 7.
Definition fr_adr_req (p : list Z) : bool := Z.testbit (at_ p 5) 6.
