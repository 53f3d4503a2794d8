(** SpecJoin.v -- vocabulary of the statements about over-the-air activation: what the
    join server reads from a request, what it answers, and the session it keeps. *)
From Verif Require Export SpecNet.

(** a device as the join server knows it *)
Record identity := Mk_identity { id_dev : list Z; id_app : list Z; id_key : list Z }.
(** The DevNonce of a join-request of this device (LoRaWAN 1.0.x, 6.2.4): AppEUI and
    DevEUI as registered, MIC over the first 19 bytes. EUIs are sent least significant
    byte first; the device is given the AppEUI in that order and the DevEUI the other
    way round. *)
Definition server_reads (cmac : list Z -> list Z -> list Z) (d : identity) (f : list Z) : option Z :=
  if (length f =? 23)%nat && (at_ f 0 =? 0) && list_eqb (slice f 1 8) (id_app d) && list_eqb (rev (slice f 9 8)) (id_dev d) &&
     list_eqb (slice f 19 4) (firstn 4 (cmac (id_key d) (firstn 19 f)))
  then Some (request_nonce f) else None.
(** an answer of the join server, 6.2.5 *)
Record grant := Mk_grant { a_nonce : Z; a_net : Z; a_addr : Z; a_dl : Z; a_delay : Z; a_cflist : list Z }.
Definition grant_wf (a : grant) : Prop :=
  0 <= a_nonce a < 2 ^ 24 /\ 0 <= a_net a < 2 ^ 24 /\ is_u32 (a_addr a) /\ is_u8 (a_dl a) /\ is_u8 (a_delay a) /\
  (a_cflist a = [] \/ (length (a_cflist a) = 16%nat /\ bytes_ok (a_cflist a))).
Definition grant_frame (cmac dec : list Z -> list Z -> list Z) (d : identity) (a : grant) : list Z :=
  join_accept_frame cmac dec (id_key d) (a_nonce a) (a_net a) (a_addr a) (a_dl a) (a_delay a) (a_cflist a).
(** the session the server keeps after answering [a] to a request with DevNonce [n] *)
Definition server_session (aes : list Z -> list Z -> list Z) (d : identity) (a : grant) (n : Z) : session :=
  Mk_session true false 0 (a_addr a) 0 0 (session_key aes 1 (id_key d) (a_nonce a) (a_net a) n) (session_key aes 2 (id_key d) (a_nonce a) (a_net a) n).
(** same address and keys *)
Definition agree (r s : session) : Prop := dev_addr r = dev_addr s /\ nwk_s_key r = nwk_s_key s /\ app_s_key r = app_s_key s.

(** the join-requests of a run, in the order of sending *)
Definition join_requests (tr : list entry) : list (list Z) :=
  flat_map (fun t => match t with (OJoin, VErr ERR_NO, es) => tx_frames es | _ => [] end) tr.
(** for each of them, the number rand() returned for its DevNonce (the draw before it is
    for the channel) *)
Definition nonce_draws (tr : list entry) : list Z :=
  flat_map (fun t => match t with
    | (OJoin, VErr ERR_NO, es) => match flat_map (fun e => match e with LRand r => [r] | _ => [] end) es with [_; r] => [r] | _ => [] end
    | _ => [] end) tr.
