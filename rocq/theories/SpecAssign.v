(** SpecAssign.v -- who gives a channel its frequency, and who enables it (C06) *)
From Verif Require Export SpecMac SpecChan SpecDown SpecRx SpecJoin.

(** The CFList of the join-accept received in [w]: 5 frequencies and a type *)
Definition cflist_of (E : env) (w : world) : list Z := slice (ja_clear E (app_key w) (rx_data (received E w))) 13 16.
(** ... whose [k]-th frequency, in Hz, is for channel [i] *)
Definition cflist_gives (E : env) (w : world) (i f : Z) : Prop :=
  length (rx_data (received E w)) = 33%nat /\ at_ (cflist_of E w) 15 = 0 /\
  exists r k, uw_region (stk w) = Some r /\ 0 <= k < 5 /\ i = len (region_defaults r) + k /\
    f = 100 * unle (slice (cflist_of E w) (Z.to_nat (3 * k)) 3).
(** A data frame received in [w], with the device's address, carries the command [c]. *)
Definition frame_has (E : env) (w : world) (c : mac_cmd) : Prop :=
  let d := rx_data (received E w) in
  joining w = false /\ fr_down d /\ fr_sized d /\ fr_addr d = dev_addr (ses w) /\ In c (mac_parse (fr_fopts d)).
(** The call or event [o] in [w], with the effects [es], gives channel [i] the frequency
    [f]: the application, the region's defaults, a join-accept that is accepted, or a
    NewChannelReq for data rates 0 to 5. *)
Inductive assigns (E : env) (w : world) : op -> list ev -> Z -> Z -> Prop :=
| assigns_app es i f : legal_freq f = true -> assigns E w (OSetChannel i f) es i f
| assigns_region r es i f : 0 <= i -> nth_error (region_defaults r) (Z.to_nat i) = Some f -> assigns E w (OInit r) es i f
| assigns_cflist m es i f view : receives w m -> joining w = true -> callbacks es = [(ERR_NO, MTYPE_JOIN_ACCEPT, view)] ->
    cflist_gives E w i f -> legal_freq f = true -> assigns E w (OIrq m) es i f
| assigns_network m es i f : receives w m -> frame_has E w (NewChannelReq i f 80) -> legal_freq f = true ->
    assigns E w (OIrq m) es i f.
(** [o] in [w] enables channel [i]: it gives it a frequency, the application enables it,
    or a LinkADRReq's mask does. *)
Inductive enables (E : env) (w : world) : op -> list ev -> Z -> Prop :=
| enables_given o es i f : assigns E w o es i f -> enables E w o es i
| enables_app es i : enables E w (OEnableChannel i true) es i
| enables_mask m es i dr power mask cntl nb : receives w m -> frame_has E w (LinkADRReq dr power mask cntl nb) ->
    Z.testbit mask i = true -> enables E w (OIrq m) es i.

(** [P] holds in [w] and after each of the calls [ops] *)
Fixpoint stays (E : env) (P : world -> Prop) (w : world) (ops : list op) : Prop :=
  P w /\ match ops with
         | [] => True
         | o :: ops' => match step E w o with Some (_, _, w') => stays E P w' ops' | None => False end
         end.
(** In the run [tr], which ends in [w], [P] holds since an entry [A]: it holds after this
    entry and has held ever since. *)
Definition since (E : env) (tr : list entry) (w : world) (P : world -> Prop) (A : world -> op -> list ev -> Prop) : Prop :=
  exists ops1 tr1 w1 o v es w2 ops2 tr2, tr = tr1 ++ (o, v, es) :: tr2 /\ exec E world0 ops1 tr1 w1 /\
    step E w1 o = Some (v, es, w2) /\ exec E w2 ops2 tr2 w /\ A w1 o es /\ stays E P w2 ops2.
