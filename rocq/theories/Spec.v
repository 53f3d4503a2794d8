(** Spec.v -- what the properties are stated with: LoRaWAN 1.0 frame formats,
    key derivation and small reference definitions. Nothing here refers to the
    functions of the model; only the interface types of Types.v are used. *)
From Verif Require Import Base Types.

(** ** Bytes *)

(** [n] little-endian bytes of [v] *)
Fixpoint le (n : nat) (v : Z) : list Z :=
  match n with O => [] | S n' => v mod 256 :: le n' (v / 256) end.
(** the number a little-endian byte string stands for *)
Fixpoint unle (l : list Z) : Z :=
  match l with [] => 0 | b :: l' => b + 256 * unle l' end.
Fixpoint xorl (a b : list Z) : list Z :=
  match a, b with
  | x :: a', y :: b' => Z.lxor x y :: xorl a' b'
  | _, _ => []
  end.
(** the byte at position [i] *)
Definition at_ (l : list Z) (i : nat) : Z := nth i l 0.

(** ** LoRaWAN 1.0.x frame cryptography (specification 4.3.3, 4.4, 6.2.5) *)
Section Crypto.
  Context (aes : list Z -> list Z -> list Z) (cmac : list Z -> list Z -> list Z).

  Definition UP := 0.
  Definition DOWN := 1.

  (** block A_i, 4.3.3 *)
  Definition block_a (dir addr cnt i : Z) : list Z :=
    [1; 0; 0; 0; 0; dir] ++ le 4 addr ++ le 4 cnt ++ [0; i].
  Fixpoint stream_from (key : list Z) (dir addr cnt i : Z) (blocks : nat) : list Z :=
    match blocks with
    | O => []
    | S n => aes key (block_a dir addr cnt i) ++ stream_from key dir addr cnt (i + 1) n
    end.
  (** enough key stream for [n] bytes *)
  Definition keystream (key : list Z) (dir addr cnt : Z) (n : nat) : list Z :=
    stream_from key dir addr cnt 1 (n / 16 + 1).
  (** FRMPayload encryption; the same function decrypts *)
  Definition crypt (key : list Z) (dir addr cnt : Z) (data : list Z) : list Z :=
    xorl data (keystream key dir addr cnt (length data)).

  (** block B_0 and MIC, 4.4 *)
  Definition block_b0 (dir addr cnt n : Z) : list Z :=
    [73; 0; 0; 0; 0; dir] ++ le 4 addr ++ le 4 cnt ++ [0; n].
  Definition data_mic (key : list Z) (dir addr cnt : Z) (msg : list Z) : list Z :=
    firstn 4 (cmac key (block_b0 dir addr cnt (len msg) ++ msg)).

  (** ** Data frames, 4.1 - 4.3 *)
  Definition MHDR_UNCONF_UP := 64.
  Definition MHDR_CONF_UP := 128.
  Definition MHDR_UNCONF_DOWN := 96.
  Definition MHDR_CONF_DOWN := 160.
  Definition MHDR_JOIN_REQ := 0.
  Definition MHDR_JOIN_ACC := 32.

  (** FHDR | FPort | FRMPayload; no FPort when there is no payload *)
  Definition data_body (mhdr addr fctrl cnt : Z) (fopts : list Z) (port : Z) (frm : list Z) : list Z :=
    [mhdr] ++ le 4 addr ++ [fctrl] ++ le 2 cnt ++ fopts ++
    match frm with [] => [] | _ => port :: frm end.
  Definition sealed (nwk : list Z) (dir addr cnt : Z) (body : list Z) : list Z :=
    body ++ data_mic nwk dir addr cnt body.

  Definition up_fctrl (adr adr_ack_req ack : bool) (fopts : list Z) : Z :=
    128 * b2z adr + 64 * b2z adr_ack_req + 32 * b2z ack + len fopts.

  Definition uplink_frame (nwk app : list Z) (addr cnt : Z) (confirm adr req ack : bool)
      (fopts : list Z) (port : Z) (payload : list Z) : list Z :=
    sealed nwk UP addr cnt
      (data_body (if confirm then MHDR_CONF_UP else MHDR_UNCONF_UP) addr
         (up_fctrl adr req ack fopts) cnt fopts port
         (crypt app UP addr cnt payload)).

  (** A downlink as a network server builds it. [port = None]: no FPort field.
      Port 0 carries MAC commands and is encrypted with NwkSKey. *)
  Definition down_key (nwk app : list Z) (port : Z) : list Z := if port =? 0 then nwk else app.
  Definition downlink_body (nwk app : list Z) (addr cnt : Z) (confirmed : bool) (fctrl_hi : Z)
      (fopts : list Z) (frm : option (Z * list Z)) : list Z :=
    [if confirmed then MHDR_CONF_DOWN else MHDR_UNCONF_DOWN] ++ le 4 addr ++
    [16 * fctrl_hi + len fopts] ++ le 2 cnt ++ fopts ++
    match frm with
    | None => []
    | Some (port, payload) => port :: crypt (down_key nwk app port) DOWN addr cnt payload
    end.
  Definition downlink_frame (nwk app : list Z) (addr cnt : Z) (confirmed : bool) (fctrl_hi : Z)
      (fopts : list Z) (frm : option (Z * list Z)) : list Z :=
    sealed nwk DOWN addr cnt
      (downlink_body nwk app addr cnt confirmed fctrl_hi fopts frm).

  (** ** Join procedure, 6.2.4, 6.2.5 *)
  Definition join_request (app_eui dev_eui app_key : list Z) (nonce : Z) : list Z :=
    let body := [MHDR_JOIN_REQ] ++ app_eui ++ rev dev_eui ++ le 2 nonce in
    body ++ firstn 4 (cmac app_key body).
  Definition session_key (kind : Z) (app_key : list Z) (app_nonce net_id nonce : Z) : list Z :=
    aes app_key ([kind] ++ le 3 app_nonce ++ le 3 net_id ++ le 2 nonce ++ repeat 0 7).
  (** the plain join-accept: [rx_delay] is the whole RxDelay byte, [cflist] is
      empty or 16 bytes *)
  Definition join_accept_body (app_nonce net_id addr dl_settings rx_delay : Z) (cflist : list Z) : list Z :=
    le 3 app_nonce ++ le 3 net_id ++ le 4 addr ++ [dl_settings; rx_delay] ++ cflist.
  (** what the server encrypts: body and MIC *)
  Definition join_accept_plain (app_key : list Z) (app_nonce net_id addr dl_settings rx_delay : Z)
      (cflist : list Z) : list Z :=
    let body := join_accept_body app_nonce net_id addr dl_settings rx_delay cflist in
    body ++ firstn 4 (cmac app_key ([MHDR_JOIN_ACC] ++ body)).
  (** the server uses the AES *decrypt* operation (specification 6.2.5), block by block *)
  Fixpoint blocks (dec : list Z -> list Z -> list Z) (key : list Z) (n : nat) (l : list Z) : list Z :=
    match n with
    | O => []
    | S n' => dec key (firstn 16 l) ++ blocks dec key n' (skipn 16 l)
    end.
  Definition join_accept_frame (dec : list Z -> list Z -> list Z) (app_key : list Z)
      (app_nonce net_id addr dl_settings rx_delay : Z) (cflist : list Z) : list Z :=
    let plain := join_accept_plain app_key app_nonce net_id addr dl_settings rx_delay cflist in
    [MHDR_JOIN_ACC] ++ blocks dec app_key (length plain / 16) plain.
End Crypto.

(** ** Events *)

(** frames handed to the radio *)
Fixpoint tx_frames (es : list ev) : list (list Z) :=
  match es with
  | [] => []
  | RTx f :: es' => f :: tx_frames es'
  | _ :: es' => tx_frames es'
  end.
(** downlink callbacks *)
Fixpoint callbacks (es : list ev) : list (err * Z * dlview) :=
  match es with
  | [] => []
  | CbDown e t v :: es' => (e, t, v) :: callbacks es'
  | _ :: es' => callbacks es'
  end.
(** frequencies, modulation and power requested from the radio *)
Fixpoint freqs (es : list ev) : list Z :=
  match es with [] => [] | RSetFreq f :: es' => f :: freqs es' | _ :: es' => freqs es' end.
Fixpoint setups (es : list ev) : list params :=
  match es with [] => [] | RSetup p :: es' => p :: setups es' | _ :: es' => setups es' end.
Fixpoint powers (es : list ev) : list Z :=
  match es with [] => [] | RSetPower p :: es' => p :: powers es' | _ :: es' => powers es' end.
(** an event that only draws a random number *)
Definition is_draw (e : ev) : bool := match e with LRand _ => true | _ => false end.

(** ** Regional parameters EU868 / RU864 (LoRaWAN Regional Parameters) *)
(** spreading factor of a data rate, as the enum value of include/uwan/stack.h *)
Definition dr_sf (dr : Z) : Z := 6 - dr.
(** largest FOpts + FRMPayload (N), at the repeater-compatible limit *)
Definition dr_max (dr : Z) : Z :=
  if dr <=? 2 then 51 else if dr =? 3 then 115 else 222.

(** ** Clock synchronisation messages (LoRa Alliance TS003) *)
Inductive cs_req :=
| QVersion                       (* PackageVersionReq *)
| QAnswer (corr token : Z)       (* AppTimeAns *)
| QPeriod (id : Z)               (* DeviceAppTimePeriodicityReq *)
| QResync (n : Z).               (* ForceDeviceResyncReq *)

Definition signed32 (v : Z) : Z := if v <? 2147483648 then v else v - 4294967296.

(** The requests of a message, each kind at most once; commands 4..31 are
    skipped, a truncated AppTimeAns or DeviceAppTimePeriodicityReq is skipped.
    [None]: a command byte above 31 or a ForceDeviceResyncReq without its
    argument. [seen]: commands met so far. *)
Fixpoint cs_parse (seen : list Z) (msg : list Z) : option (list cs_req) :=
  match msg with
  | [] => Some []
  | c :: rest =>
      if 32 <=? c then None else
      if existsb (Z.eqb c) seen then Some [] else
      let seen' := if c <? 8 then c :: seen else seen in
      if c =? 0 then option_map (cons QVersion) (cs_parse seen' rest)
      else if c =? 1 then
        match rest with
        | b0 :: b1 :: b2 :: b3 :: b4 :: rest' =>
            option_map (cons (QAnswer (signed32 (unle [b0; b1; b2; b3])) (b4 mod 16))) (cs_parse seen' rest')
        | _ => cs_parse seen' rest
        end
      else if c =? 2 then
        match rest with
        | [] => Some []
        | p :: rest' => option_map (cons (QPeriod p)) (cs_parse seen' rest')
        end
      else if c =? 3 then
        match rest with
        | [] => None
        | b :: rest' => option_map (cons (QResync (b mod 8))) (cs_parse seen' rest')
        end
      else cs_parse seen' rest
  end.

(** Unix to GPS time, 32 bits, 18 leap seconds *)
Definition gps_of_unix (t : Z) : Z := (t - 315964800 + 18) mod 4294967296.
