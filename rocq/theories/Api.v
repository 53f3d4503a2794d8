(** Api.v -- the API as a transition system: every call the application, the
    timers or the radio interrupt can make, and executions as lists of calls. *)
From Verif Require Export ClockSync.

(** One call into the library. Sources: include/uwan/stack.h:203-363,
    include/uwan/ext/clock_sync.h:39-48; [OIrq] is the driver calling the event
    handler registered by uwan_init (src/stack.c:523). *)
Inductive op :=
| OInit (r : region)
| OSetOtaa (dev_eui app_eui app_key : list Z)
| OSetSession (addr cnt_up cnt_down : Z) (nwk app : list Z)
| OIsJoined
| OEnableChannel (index : Z) (enable : bool)
| OSetChannel (index frequency : Z)
| OSetRx2 (frequency dr : Z)
| OJoin
| OGetMax
| OSend (port : Z) (payload : list Z) (confirm : bool)
| OTimer (t : timer_id)
| OSetDr (dr : Z)
| OSetNb (nb_trans : Z)
| OSetEirp (max_eirp : Z)
| OSetTxp (tx_power : Z)
| OSetRx1Off (rx1_dr_offset : Z)
| OSetRx1Delay (delay : Z)
| OAdrIs
| OAdrEnable (enable : bool)
| OAdrSetup (limit delay : Z)
| OSetHandlers (cbs : option mac_callbacks)
| OLinkCheckReq
| ODevTimeReq
| OIrq (mask : Z)
| OCsInit (cbs : option cs_cbs)
| OCsHandle (e : err) (buf : option (list Z)) (size port : Z)
| OCsSendReq (ans_required : bool)
| OCsPending
| OCsSendAns.

(** Return values. *)
Inductive val := VUnit | VBool (b : bool) | VNum (n : Z) | VErr (e : err).

Definition as_unit (m : C unit) : C val := m ;;; ret VUnit.
Definition as_bool (m : C bool) : C val := b <- m ;; ret (VBool b).
Definition as_num (m : C Z) : C val := n <- m ;; ret (VNum n).
Definition as_err (m : C err) : C val := e <- m ;; ret (VErr e).

Definition call (E : env) (o : op) : C val :=
  match o with
  | OInit r => as_unit (uwan_init E r)
  | OSetOtaa d a k => as_unit (uwan_set_otaa_keys d a k)
  | OSetSession a u d n p => as_unit (uwan_set_session a u d n p)
  | OIsJoined => as_bool uwan_is_joined
  | OEnableChannel i e => as_err (uwan_enable_channel i e)
  | OSetChannel i f => as_err (uwan_set_channel i f)
  | OSetRx2 f d => as_err (uwan_set_rx2 f d)
  | OJoin => as_err (uwan_join E)
  | OGetMax => as_num uwan_get_max_payload_size
  | OSend p d c => as_err (uwan_send_frame E p d (len d) c)
  | OTimer t => as_unit (uwan_timer_callback t)
  | OSetDr d => as_unit (uwan_set_dr d)
  | OSetNb n => as_bool (uwan_set_nb_trans n)
  | OSetEirp e => as_unit (uwan_set_max_eirp e)
  | OSetTxp p => as_bool (uwan_set_tx_power p)
  | OSetRx1Off o => as_bool (uwan_set_rx1_dr_offset o)
  | OSetRx1Delay d => as_bool (uwan_set_rx1_delay d)
  | OAdrIs => as_bool uwan_adr_is_enabled
  | OAdrEnable b => as_unit (uwan_adr_enable b)
  | OAdrSetup l d => as_unit (uwan_adr_setup_ack l d)
  | OSetHandlers c => as_unit (uwan_mac_set_handlers c)
  | OLinkCheckReq => as_bool uwan_mac_link_check_req
  | ODevTimeReq => as_bool uwan_mac_device_time_req
  | OIrq m => as_unit (evt_handler E m)
  | OCsInit c => as_unit (uwan_clock_sync_init c)
  | OCsHandle e b s p => as_unit (uwan_clock_sync_handle_time_answ E e b s p)
  | OCsSendReq a => as_err (uwan_clock_sync_send_time_req E a)
  | OCsPending => as_bool uwan_clock_sync_is_answ_pending
  | OCsSendAns => as_err (uwan_clock_sync_send_answ E)
  end.

(** The arguments have the C types of the prototypes, pointers point to
    objects of the documented size. For enum uwan_dr the values below are those
    an int-sized enum can hold when the caller passes a named constant or a
    uint8_t; see DESIGN.md for other values. *)
Definition is_u8 (x : Z) : Prop := 0 <= x < 256.
Definition is_u32 (x : Z) : Prop := 0 <= x < 4294967296.
Definition key16 (k : list Z) : Prop := length k = 16%nat /\ bytes_ok k.
Definition eui8 (k : list Z) : Prop := length k = 8%nat /\ bytes_ok k.
Definition op_wf (o : op) : Prop :=
  match o with
  | OSetOtaa d a k => eui8 d /\ eui8 a /\ key16 k
  | OSetSession a u d n p => is_u32 a /\ is_u32 u /\ is_u32 d /\ key16 n /\ key16 p
  | OEnableChannel i _ => is_u8 i
  | OSetChannel i f => is_u8 i /\ is_u32 f
  | OSetRx2 f d => is_u32 f /\ is_u8 d
  | OSend p d _ => is_u8 p /\ (length d <= 255)%nat /\ bytes_ok d
  | OSetDr d => is_u8 d
  | OSetNb n => is_u8 n
  | OSetEirp e => -128 <= e < 128
  | OSetTxp p => is_u8 p
  | OSetRx1Off o => is_u8 o
  | OSetRx1Delay d => is_u8 d
  | OAdrSetup l d => is_u8 l /\ is_u8 d
  | OIrq m => is_u8 m
  | OCsHandle _ b s p =>
      is_u8 s /\ is_u8 p /\
      match b with None => s = 0 | Some l => bytes_ok l /\ s <= len l end
  | _ => True
  end.

(** Executions: the state, and the history of external calls. *)
Record world := Mk_world { w_st : st; w_hist : list ev }.
Definition world0 : world := Mk_world power_on [].

(** One call: return value, external calls made, next world; None = UB. *)
Definition step (E : env) (w : world) (o : op) : option (val * list ev * world) :=
  match call E o (w_hist w) (w_st w) with
  | Undef _ => None
  | Ok (v, s', es) => Some (v, es, Mk_world s' (w_hist w ++ es))
  end.

(** [exec E w ops tr w']: the calls [ops] made from [w] return and do what [tr]
    records, one entry per call, and end in [w']. *)
Inductive exec (E : env) : world -> list op -> list (op * val * list ev) -> world -> Prop :=
| exec_nil : forall w, exec E w [] [] w
| exec_cons : forall w o ops v es w1 tr w2,
    step E w o = Some (v, es, w1) ->
    exec E w1 ops tr w2 ->
    exec E w (o :: ops) ((o, v, es) :: tr) w2.

(** Reachable worlds: any number of well-formed calls after power-on. *)
Definition reachable (E : env) (w : world) : Prop :=
  exists ops tr, Forall op_wf ops /\ exec E world0 ops tr w.
