(** SpecMac.v -- reference semantics of the MAC commands carried in FOpts
    (LoRaWAN 1.0.3 chapter 5, EU868/RU864): a parser from bytes to commands and
    the effect of each command on an abstract device. Independent of the model's
    functions. Where the library departs from LoRaWAN (channel mask control) the
    departure is spelled out here and the LoRaWAN rule is refuted separately. *)
From Verif Require Export SpecApi.

Inductive mac_cmd :=
| LinkCheckAns (margin gw_cnt : Z)
| LinkADRReq (dr power mask cntl nb : Z)
| DutyCycleReq (max : Z)
| RXParamSetupReq (rx1_off rx2_dr freq : Z)
| DevStatusReq
| NewChannelReq (index freq dr_range : Z)
| RXTimingSetupReq (delay : Z)
| TXParamSetupReq
| DlChannelReq
| DeviceTimeAns (seconds frac : Z).

(** The commands of an FOpts string, in order, up to the first unknown or
    incomplete one. Frequencies are in Hz. *)
Fixpoint mac_parse (l : list Z) : list mac_cmd :=
  match l with
  | [] => []
  | cid :: r =>
      if cid =? 2 then
        match r with m :: g :: r' => LinkCheckAns m g :: mac_parse r' | _ => [] end
      else if cid =? 3 then
        match r with
        | p :: m0 :: m1 :: red :: r' =>
            LinkADRReq (p / 16) (p mod 16) (unle [m0; m1]) (red / 16 mod 8) (red mod 16) :: mac_parse r'
        | _ => []
        end
      else if cid =? 4 then
        match r with d :: r' => DutyCycleReq (d mod 16) :: mac_parse r' | _ => [] end
      else if cid =? 5 then
        match r with
        | s :: f0 :: f1 :: f2 :: r' =>
            RXParamSetupReq (s / 16 mod 8) (s mod 16) (100 * unle [f0; f1; f2]) :: mac_parse r'
        | _ => []
        end
      else if cid =? 6 then DevStatusReq :: mac_parse r
      else if cid =? 7 then
        match r with
        | i :: f0 :: f1 :: f2 :: d :: r' => NewChannelReq i (100 * unle [f0; f1; f2]) d :: mac_parse r'
        | _ => []
        end
      else if cid =? 8 then
        match r with d :: r' => RXTimingSetupReq (d mod 16) :: mac_parse r' | _ => [] end
      else if cid =? 9 then
        match r with _ :: r' => TXParamSetupReq :: mac_parse r' | _ => [] end
      else if cid =? 10 then
        match r with _ :: _ :: _ :: _ :: r' => DlChannelReq :: mac_parse r' | _ => [] end
      else if cid =? 13 then
        match r with
        | s0 :: s1 :: s2 :: s3 :: f :: r' => DeviceTimeAns (unle [s0; s1; s2; s3]) f :: mac_parse r'
        | _ => []
        end
      else []
  end.

(** What MAC commands can change. *)
Record dev := Mk_dev {
  v_table : list (Z * bool);     (* 16 channels: frequency (0 = undefined), enabled *)
  v_dr : Z;                      (* session data rate *)
  v_power : Z;                   (* TX power index *)
  v_nb : Z;                      (* NbTrans *)
  v_rx1_off : Z;
  v_rx2_freq : Z;
  v_rx2_dr : Z;
  v_rx1_delay : Z;               (* ms *)
  v_queue : list Z               (* answers waiting for the next uplink *)
}.
(** What they read but cannot change. *)
Record mac_ctx := Mk_mac_ctx {
  x_nb : Z;                      (* default NbTrans *)
  x_snr : Z;                     (* SNR of the frame being processed *)
  x_time : Z;                    (* local time of the last uplink *)
  x_cbs : option mac_callbacks;
  x_battery : list ev -> Z
}.

Definition legal_freq (f : Z) : bool := (860000000 <=? f) && (f <=? 870000000).
Definition defined (e : Z * bool) : bool := negb (fst e =? 0).
(** [forall2_mask p mask t]: [p (bit i of mask) (entry i)] for every channel *)
Fixpoint mask_fits (mask : Z) (t : list (Z * bool)) : bool :=
  match t with
  | [] => true
  | e :: t' => (if Z.odd mask then defined e else true) && mask_fits (mask / 2) t'
  end.
Fixpoint mask_apply (mask : Z) (t : list (Z * bool)) : list (Z * bool) :=
  match t with
  | [] => []
  | e :: t' => (fst e, Z.odd mask) :: mask_apply (mask / 2) t'
  end.
(** LoRaWAN: only ChMaskCntl 0 selects the 16-bit mask. The library looks at
    bit 2 of ChMaskCntl only: 0..3 all mean "mask", 4..7 are all refused. *)
Definition mask_mode (cntl : Z) : bool := cntl <? 4.

Definition answer (a : list Z) (d : dev) : dev * bool :=
  if len (v_queue d) + len a <=? 15
  then (Mk_dev (v_table d) (v_dr d) (v_power d) (v_nb d) (v_rx1_off d) (v_rx2_freq d) (v_rx2_dr d) (v_rx1_delay d)
          (v_queue d ++ a), true)
  else (d, false).
Definition bits3 (b2 b1 b0 : bool) : Z := 4 * b2z b2 + 2 * b2z b1 + b2z b0.

(** The effect of one command: device, whether processing goes on, callbacks. *)
Definition mac_exec (x : mac_ctx) (h : list ev) (c : mac_cmd) (d : dev) : dev * bool * list ev :=
  match c with
  | LinkCheckAns m g =>
      (d, true, match x_cbs x with Some c => if has_link_check_result c then [MLinkCheck m g] else [] | None => [] end)
  | LinkADRReq dr power mask cntl nb =>
      let power_ok := power <? 8 in
      let dr_ok := dr <? 6 in
      let mask_ok := mask_mode cntl && mask_fits mask (v_table d) in
      let d1 :=
        if power_ok && dr_ok && mask_ok
        then Mk_dev (mask_apply mask (v_table d)) dr power (if nb =? 0 then x_nb x else nb)
               (v_rx1_off d) (v_rx2_freq d) (v_rx2_dr d) (v_rx1_delay d) (v_queue d)
        else d in
      (answer [3; bits3 power_ok dr_ok mask_ok] d1, [])
  | DutyCycleReq _ => (answer [4] d, [])
  | RXParamSetupReq off dr freq =>
      let off_ok := off <? 6 in
      let dr_ok := dr <? 6 in
      let freq_ok := legal_freq freq in
      let d1 :=
        if off_ok && dr_ok && freq_ok
        then Mk_dev (v_table d) (v_dr d) (v_power d) (v_nb d) off freq dr (v_rx1_delay d) (v_queue d)
        else d in
      (answer [5; bits3 off_ok dr_ok freq_ok] d1, [])
  | DevStatusReq =>
      match x_cbs x with
      | Some c => if has_get_battery_level c
                  then (answer [6; x_battery x h; x_snr x mod 64] d, [MBattery (x_battery x h)])
                  else (answer [6; 255; x_snr x mod 64] d, [])
      | None => (answer [6; 255; x_snr x mod 64] d, [])
      end
  | NewChannelReq i freq drr =>
      let freq_ok := legal_freq freq in
      let dr_ok := drr =? 80 in
      let d1 :=
        if freq_ok && dr_ok && (i <? 16)
        then Mk_dev (upd (Z.to_nat i) (freq, true) (v_table d)) (v_dr d) (v_power d) (v_nb d) (v_rx1_off d)
               (v_rx2_freq d) (v_rx2_dr d) (v_rx1_delay d) (v_queue d)
        else d in
      (answer [7; if freq_ok && dr_ok && negb (i <? 16) then 0 else bits3 false dr_ok freq_ok] d1, [])
  | RXTimingSetupReq del =>
      (answer [8] (Mk_dev (v_table d) (v_dr d) (v_power d) (v_nb d) (v_rx1_off d) (v_rx2_freq d) (v_rx2_dr d)
                     (1000 * Z.max 1 del) (v_queue d)), [])
  | TXParamSetupReq => (d, true, [])
  | DlChannelReq => (d, true, [])
  | DeviceTimeAns sec frac =>
      (d, true, match x_cbs x with
                | Some c => if has_device_time_result c
                            then [MTimeResult (x_time x) ((sec + 315964800 - 18) mod 4294967296) frac] else []
                | None => []
                end)
  end.

(** A sequence of commands; it ends early when an answer does not fit. *)
Fixpoint mac_run (x : mac_ctx) (h : list ev) (cs : list mac_cmd) (d : dev) : dev * list ev :=
  match cs with
  | [] => (d, [])
  | c :: cs' =>
      let '(d1, go, e1) := mac_exec x h c d in
      if (go : bool) then let '(d2, e2) := mac_run x (h ++ e1) cs' d1 in (d2, e1 ++ e2) else (d1, e1)
  end.

(** ** The abstract device and context of a state *)
Definition chan_table (s : st) : list (Z * bool) :=
  map (fun i => (nth i (uw_channels (s_ch s)) 0, Z.testbit (unle (uw_channels_mask (s_ch s))) (Z.of_nat i))) (seq 0 16).
Definition dev_of (s : st) : dev :=
  Mk_dev (chan_table s) (ses_dr (s_ses s)) (uw_tx_power (s_stk s)) (uw_nb_trans (s_stk s))
    (uw_rx1_offset (s_stk s)) (uw_rx2_frequency (s_stk s)) (uw_rx2_dr (s_stk s)) (default_rx1_delay (s_stk s))
    (firstn (Z.to_nat (mac_buf_pos (s_mac s))) (mac_buf (s_mac s))).
Definition ctx_of (E : env) (s : st) : mac_ctx :=
  Mk_mac_ctx (default_nb_trans (s_stk s)) (current_snr (s_stk s)) (mac_dev_time (s_mac s)) (mac_cbs (s_mac s))
    (e_battery E).
