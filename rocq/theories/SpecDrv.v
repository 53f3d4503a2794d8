(** SpecDrv.v -- what the caller of a radio driver asked for, read off the calls alone *)
From Verif Require Export Drv SpecRadio.

(** [w_up]: initialised successfully; [w_ready]: setup() was called and nothing since
    put the radio to sleep or started it; the other fields: the last request since
    init, None if there was none (init selects the public sync word). *)
Record want := Mk_want {
  w_up : bool; w_ready : bool; w_freq : option Z; w_dbm : option Z; w_par : option params; w_pub : bool }.
Definition want0 : want := Mk_want false false None None None true.
Definition not_ready (w : want) : want := Mk_want (w_up w) false (w_freq w) (w_dbm w) (w_par w) (w_pub w).
Definition see (w : want) (o : rop) (v : rval) : want :=
  match o, v with
  | PInit _ _, RvBool ok => Mk_want ok false None None None true
  | PFreq f, _ => Mk_want (w_up w) (w_ready w) (Some f) (w_dbm w) (w_par w) (w_pub w)
  | PPower p, RvBool true => Mk_want (w_up w) (w_ready w) (w_freq w) (Some p) (w_par w) (w_pub w)
  | PPublic b, _ => Mk_want (w_up w) (w_ready w) (w_freq w) (w_dbm w) (w_par w) b
  | PSetup p, _ => Mk_want (w_up w) true (w_freq w) (w_dbm w) (Some p) (w_pub w)
  | (PSleep | PRand | PTx _ | PRx _ _ _), _ => not_ready w
  | _, _ => w
  end.
Definition wants (tr : list rentry) : want := fold_left (fun w t => see w (fst (fst t)) (snd (fst t))) tr want0.
(** the handler registered last *)
Definition handler (tr : list rentry) : bool :=
  fold_left (fun u t => match fst (fst t) with PHandler b => b | _ => u end) tr false.

(** the variant given to the last init: high power (SX1262) or low power (SX1261) *)
Definition hp (tr : list rentry) : bool :=
  fold_left (fun u t => match fst (fst t) with PInit _ d => Sx126x.is_hp d | _ => u end) tr false.

(** The carrier is at or below [f] by less than one step of 32 MHz / 2^k. *)
Definition carrier (k f : Z) (m : modem) : Prop := m_steps m * 32000000 <= f * 2 ^ k < (m_steps m + 1) * 32000000.
(** enum radio_sf, radio_bw, radio_cr (include/uwan/stack.h:50-76): SF6.., 125 kHz.., 4/5.. *)
Definition modulation (p : params) (m : modem) : Prop :=
  m_sf m = 6 + p_sf p /\ m_khz m = 125 * 2 ^ p_bw p /\ m_cr m = 1 + p_cr p /\
  m_implicit m = p_implicit_header p /\ m_crc m = p_crc_on p /\ m_iq m = Some (p_inverted_iq p).
(** low data rate optimisation is for symbols longer than 16 ms *)
Definition long_symbols (p : params) : bool := 16 * (125 * 2 ^ p_bw p) <? 2 ^ (6 + p_sf p).
(** LoRaWAN sync words: 0x34 for public, 0x12 for private networks *)
Definition sync_word (pub : bool) : Z := if pub then 52 else 18.

(** After the calls [tr] of a driver in use, [o] is called and returns [v]; [hi] and
    [its] are the transactions before and during the call. *)
Definition does127 (H : henv) (tr : list rentry) (h : list hev) (s : Sx127x.d127) (o : rop) (v : rval) (s' : Sx127x.d127) (es : list hev) (hi its : list item) : Prop :=
  used127 H tr h s /\ rop_wf o /\ call127 H o h s = Ok (v, s', es) /\ transcript h = Some hi /\ transcript es = Some its.
Definition does126 (H : henv) (tr : list rentry) (h : list hev) (s : Sx126x.d126) (o : rop) (v : rval) (s' : Sx126x.d126) (es : list hev) (hi its : list item) : Prop :=
  used126 H tr h s /\ rop_wf o /\ call126 H o h s = Ok (v, s', es) /\ transcript h = Some hi /\ transcript es = Some its.
(** A call the program may make: any once the driver is initialised, and init before. *)
Definition may127 (H : henv) (h : list hev) (s : Sx127x.d127) (o : rop) : Prop :=
  (exists tr, used127 H tr h s) \/ h = [] /\ s = Sx127x.d127_0 /\ exists hal d, o = PInit hal d.
Definition may126 (H : henv) (h : list hev) (s : Sx126x.d126) (o : rop) : Prop :=
  (exists tr, used126 H tr h s) \/ h = [] /\ s = Sx126x.d126_0 /\ exists hal d, o = PInit hal d.
(** the mask for a set of radio events *)
Definition mask (tx rx timeout crc : bool) : Z :=
  (if tx then IRQF_TX_DONE else 0) + (if rx then IRQF_RX_DONE else 0) + (if timeout then IRQF_RX_TIMEOUT else 0) + (if crc then IRQF_CRC_ERROR else 0).
