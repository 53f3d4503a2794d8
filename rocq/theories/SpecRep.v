(** SpecRep.v -- vocabulary of the statements about the number of transmissions and
    about the key of an uplink's payload. *)
From Verif Require Export SpecTx.

(** every frame put on the air in a trace *)
Definition transmissions (tr : list entry) : list (list Z) := flat_map (fun t => tx_frames (snd t)) tr.
(** a call to send an uplink or a join-request that returns UWAN_ERR_NO *)
Definition accepted_call (t : entry) : bool :=
  match t with (OJoin, VErr ERR_NO, _) | (OSend _ _ _, VErr ERR_NO, _) | (OCsSendReq _, VErr ERR_NO, _) | (OCsSendAns, VErr ERR_NO, _) => true | _ => false end.
Definition reports (t : entry) : bool := match callbacks (snd t) with [] => false | _ => true end.
(** the trace ends with its first report to the application *)
Fixpoint until_report (tr : list entry) : bool :=
  match tr with [] => false | t :: tr' => if reports t then match tr' with [] => true | _ => false end else until_report tr' end.
(** only the radio and the timers act *)
Definition hardware_only (tr : list entry) : bool := forallb (fun t => match fst (fst t) with OIrq _ | OTimer _ => true | _ => false end) tr.
(** no frame is received *)
Definition no_frame (tr : list entry) : bool := forallb (fun t => forallb (fun e => match e with RRead _ => false | _ => true end) (snd t)) tr.
(** the key of an uplink's payload, LoRaWAN 4.3.3 table 3 *)
Definition port_key (r : session) (port : Z) : list Z := if port =? 0 then nwk_s_key r else app_s_key r.
