(** SpecCfg.v -- vocabulary of the statements about settings. *)
From Verif Require Export SpecTx.

(** The radio settings an application or the network can change. *)
Record config := Mk_config {
  c_dr : Z;        (* data rate set by the application *)
  c_nb0 : Z;       (* NbTrans set by the application *)
  c_nb : Z;        (* NbTrans in force *)
  c_eirp : Z;      (* maximum EIRP, dBm *)
  c_pw0 : Z;       (* TX power index set by the application *)
  c_pw : Z;        (* TX power index in force *)
  c_off : Z;       (* RX1 data rate offset *)
  c_delay : Z;     (* RX1 delay, ms *)
  c_rx2f : Z;      (* RX2 frequency, Hz *)
  c_rx2dr : Z      (* RX2 data rate *)
}.
Definition config_of (w : world) : config :=
  let k := stk w in
  Mk_config (default_dr k) (default_nb_trans k) (uw_nb_trans k) (default_max_eirp k) (default_tx_power k) (uw_tx_power k)
    (uw_rx1_offset k) (default_rx1_delay k) (uw_rx2_frequency k) (uw_rx2_dr k).

(** RX2 frequency a region starts with (src/region/{eu868,ru864}.c) *)
Definition rx2_default (r : region) : Z := match r with EU868 => 868100000 | RU864 => 869100000 end.

(** settings after a call that is not a radio event *)
Definition config_call (o : op) (c : config) : config :=
  let '(Mk_config dr nb0 nb eirp pw0 pw off delay rx2f rx2dr) := c in
  match o with
  | OInit r => Mk_config dr nb0 nb eirp pw0 pw 0 1000 (rx2_default r) 0
  | OSetDr d => if d <=? 5 then Mk_config d nb0 nb eirp pw0 pw off delay rx2f rx2dr else c
  | OSetNb n => if (1 <=? n) && (n <=? 15) then Mk_config dr n n eirp pw0 pw off delay rx2f rx2dr else c
  | OSetEirp e => Mk_config dr nb0 nb e pw0 pw off delay rx2f rx2dr
  | OSetTxp p => if p <=? 7 then Mk_config dr nb0 nb eirp p p off delay rx2f rx2dr else c
  | OSetRx1Off x => if x <=? 5 then Mk_config dr nb0 nb eirp pw0 pw x delay rx2f rx2dr else c
  | OSetRx1Delay d => if (1 <=? d) && (d <=? 15) then Mk_config dr nb0 nb eirp pw0 pw off (1000 * d) rx2f rx2dr else c
  | OSetRx2 f d => if (860000000 <=? f) && (f <=? 870000000) && (d <=? 5) then Mk_config dr nb0 nb eirp pw0 pw off delay f d else c
  | _ => c
  end.

(** a frame asks for a change of the RX1 delay: a RXTimingSetupReq in its FOpts *)
Definition asks_delay (p : list Z) : bool :=
  existsb (fun c => match c with RXTimingSetupReq _ => true | _ => false end) (mac_parse (fr_fopts p)).
(** a call or received frame that may change the RX1 delay: uwan_init,
    uwan_set_rx1_delay, a frame that could be a join-accept, a RXTimingSetupReq *)
Definition delay_entry (t : entry) : bool :=
  match t with
  | (OInit _, _, _) | (OSetRx1Delay _, _, _) => true
  | (_, _, es) => existsb (fun p => (at_ p 0 =? 32) || asks_delay p) (reads es)
  end.
(** length of the answer to a command *)
Definition answer_len (c : mac_cmd) : Z :=
  match c with
  | LinkADRReq _ _ _ _ _ | RXParamSetupReq _ _ _ | NewChannelReq _ _ _ => 2
  | DutyCycleReq _ | RXTimingSetupReq _ => 1
  | DevStatusReq => 3
  | _ => 0
  end.
Definition answers_len (cs : list mac_cmd) : Z := fold_right (fun c n => answer_len c + n) 0 cs.
(** ranges of what the radio and the timers are asked for *)
Definition in_range (e : ev) : Prop :=
  match e with
  | RSetFreq f => 860000000 <= f <= 870000000
  | RSetup p => exists dr iq, 0 <= dr <= 5 /\ p = lora dr iq
  | TStart t ms => exists s, 1 <= s <= 15 /\ ms = 1000 * (s + match t with TIMER_RX1 => 0 | TIMER_RX2 => 1 end)
  | RTx f => 12 <= len f <= 235
  | RRx n symb tmo => n = 255 /\ symb = 8 /\ tmo = 0
  | _ => True
  end.
