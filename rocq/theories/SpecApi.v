(** SpecApi.v -- vocabulary of the property statements about executions: what
    is observed of a world, and a reference network server. Nothing here refers
    to the functions of the model; only its state fields and its transition
    relation are used. *)
From Verif Require Export Spec Api.

(** ** Observations *)
Definition ses (w : world) : session := s_ses (w_st w).
Definition stk (w : world) : stackst := s_stk (w_st w).
Definition idle (w : world) : Prop := uw_state (stk w) = IDLE.
Definition busy (w : world) : Prop :=
  uw_state (stk w) = TX \/ uw_state (stk w) = RX1 \/ uw_state (stk w) = RX2.
Definition initialised (w : world) : Prop := uw_state (stk w) <> NOT_INIT.
(** the queued MAC commands *)
Definition fopts (w : world) : list Z :=
  let m := s_mac (w_st w) in firstn (Z.to_nat (mac_buf_pos m)) (mac_buf m).
(** the channel table: the mask is a 16-bit little-endian number *)
Definition chan_on (w : world) (i : Z) : bool := Z.testbit (unle (uw_channels_mask (s_ch (w_st w)))) i.
Definition chan_freq (w : world) (i : Z) : Z := nth (Z.to_nat i) (uw_channels (s_ch (w_st w))) 0.
Definition adr_on (w : world) : bool := adr_is_enabled (s_adr (w_st w)).
(** the data rate the next data uplink uses *)
Definition up_dr (w : world) : Z := if adr_on w then ses_dr (ses w) else default_dr (stk w).
(** ADRACKReq is due *)
Definition adr_ack_due (w : world) : bool :=
  adr_on w && negb (ses_dr (ses w) =? 0) && (ack_limit (s_adr (w_st w)) <=? ack_cnt (s_adr (w_st w))).

(** calls that send an uplink *)
Definition is_uplink_call (o : op) : bool :=
  match o with OSend _ _ _ | OCsSendReq _ | OCsSendAns => true | _ => false end.

Definition entry := (op * val * list ev)%type.
Definition evs_of (t : entry) : list ev := snd t.
Definition all_evs (tr : list entry) : list ev := flat_map evs_of tr.

(** a call that starts a new session: initialisation, activation by
    personalisation, or an accepted join-accept (reported with message type 1) *)
Definition accepts_join (es : list ev) : Prop := exists v, In (CbDown ERR_NO MTYPE_JOIN_ACCEPT v) es.
Definition new_session_entry (t : entry) : Prop :=
  match fst (fst t) with
  | OInit _ | OSetSession _ _ _ _ _ => True
  | _ => accepts_join (snd t)
  end.
(** frames sent by data uplinks (join-requests excluded) *)
Definition data_frames (tr : list entry) : list (list Z) :=
  flat_map (fun t => match fst (fst t) with OJoin => [] | _ => tx_frames (snd t) end) tr.

(** ** A network server receiving an uplink (LoRaWAN 1.0.x, 4.1 - 4.4) *)
Record uplink := Mk_uplink {
  u_confirm : bool;
  u_adr : bool;
  u_adr_ack_req : bool;
  u_ack : bool;
  u_fopts : list Z;
  u_data : option (Z * list Z)      (* FPort, plain FRMPayload *)
}.
Definition slice (l : list Z) (off n : nat) : list Z := firstn n (skipn off l).
Definition list_eqb (a b : list Z) : bool := if list_eq_dec Z.eq_dec a b then true else false.
Definition server_receive (aes cmac : list Z -> list Z -> list Z) (nwk app : list Z) (addr cnt : Z)
    (f : list Z) : option uplink :=
  let n := length f in
  let body := firstn (n - 4) f in
  let mhdr := at_ f 0 in
  let fctrl := at_ f 5 in
  let fol := Z.to_nat (fctrl mod 16) in
  if (12 <=? n)%nat && (8 + fol <=? n - 4)%nat
     && ((mhdr =? MHDR_UNCONF_UP) || (mhdr =? MHDR_CONF_UP))
     && (unle (slice f 1 4) =? addr) && (unle (slice f 6 2) =? cnt mod 65536)
     && list_eqb (skipn (n - 4) f) (data_mic cmac nwk UP addr cnt body)
  then Some (Mk_uplink (mhdr =? MHDR_CONF_UP) (Z.testbit fctrl 7) (Z.testbit fctrl 6) (Z.testbit fctrl 5)
               (slice f 8 fol)
               (match skipn (8 + fol) body with
                | [] => None
                | port :: frm => Some (port, crypt aes app UP addr cnt frm)
                end))
  else None.

(** ** Vocabulary of single properties *)
Definition no_channel (w : world) : Prop := forall i, 0 <= i < 16 -> chan_on w i = false.
Definition some_channel (w : world) : Prop := exists i, 0 <= i < 16 /\ chan_on w i = true.
Definition max_payload (w : world) : Z := dr_max (up_dr w) - len (fopts w).
Inductive send_result (w : world) (payload : list Z) : err -> Prop :=
| SR_channel : no_channel w -> send_result w payload ERR_CHANNEL
| SR_len : some_channel w -> max_payload w < len payload \/ (payload = [] /\ fopts w = []) ->
    send_result w payload ERR_MSG_LEN
| SR_ok : some_channel w -> len payload <= max_payload w -> payload <> [] \/ fopts w <> [] ->
    send_result w payload ERR_NO.
(** Calls that concern neither radio, timers nor application: crypto, rand(),
    the wall clock. *)
Definition off_radio (e : ev) : bool :=
  match e with
  | CAesNew _ | CAesEnc _ | CAesDel | CCmacNew _ | CCmacUpd _ | CCmacFin | CCmacDel | LRand _ | KUnixtime _ => true
  | _ => false
  end.
(** The events of a call that transmits [frm]: frequency, modulation and power
    are programmed once each, in this order, before the frame is handed over,
    and nothing else is asked of radio, timers or application. *)
Definition transmits (es : list ev) (freq : Z) (prm : params) (power : Z) (frm : list Z) : Prop :=
  exists pre mid,
    es = pre ++ [RSetFreq freq; RSetup prm; RSetPower power] ++ mid ++ [RTx frm] /\
    forallb off_radio pre = true /\ forallb off_radio mid = true.
(** the modulation of an uplink at data rate [dr] *)
Definition uplink_modulation (dr : Z) : params := Mk_params (dr_sf dr) 0 0 8 true false false.
Definition with_rand (draw : Z) (E : env) : env :=
  Mk_env (e_aes E) (e_cmac E) (fun _ => draw) (e_radio_rand E) (e_pkt E) (e_battery E) (e_devtime E) (e_unixtime E)
    (e_strict_shl E).
Definition uplink_with (E : env) (r : session) (cnt : Z) (f : list Z) : Prop :=
  exists confirm adr req ack fo port payload,
    f = uplink_frame (e_aes E) (e_cmac E) (nwk_s_key r) (app_s_key r) (dev_addr r) cnt
          confirm adr req ack fo port payload.
Definition counters (start : Z) (n : nat) : list Z :=
  map (fun i => (start + Z.of_nat i) mod 4294967296) (seq 0 n).
