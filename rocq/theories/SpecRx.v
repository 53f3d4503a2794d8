(** SpecRx.v -- vocabulary of the statements about joining and about frames that
    are rejected. *)
From Verif Require Export SpecChan SpecDown.

(** ** Joining *)
Definition app_key (w : world) : list Z := uw_app_key (stk w).
(** [dec] undoes the AES encryption of one block *)
Definition aes_inverse (E : env) (dec : list Z -> list Z -> list Z) : Prop :=
  forall k b, length b = 16%nat -> bytes_ok b ->
    length (dec k b) = 16%nat /\ e_aes E k (dec k b) = b.
(** the frame after "decryption": the first byte is in clear *)
Definition ja_clear (E : env) (key d : list Z) : list Z :=
  firstn 1 d ++ blocks (e_aes E) key ((length d - 1) / 16) (skipn 1 d).
(** a frame that must be accepted as a join-accept *)
Definition ja_valid (E : env) (key d : list Z) : Prop :=
  (length d = 17%nat \/ length d = 33%nat) /\ at_ d 0 = MHDR_JOIN_ACC /\
  let D := ja_clear E key d in
  skipn (length D - 4) D = firstn 4 (e_cmac E key (firstn (length D - 4) D)).

(** everything except the radio transaction in progress: the automaton state,
    the frame buffer and the join flag *)
Definition but_transient (k : stackst) : stackst :=
  set_uw_frame [] (set_uw_state IDLE (set_uw_is_join_state false k)).
Definition kept (w w' : world) : Prop :=
  s_ch (w_st w') = s_ch (w_st w) /\ s_adr (w_st w') = s_adr (w_st w) /\ s_mac (w_st w') = s_mac (w_st w) /\
  ses w' = ses w /\ s_cs (w_st w') = s_cs (w_st w) /\ but_transient (stk w') = but_transient (stk w).

(** ** Activation history *)
Definition accepts_join_b (es : list ev) : bool :=
  existsb (fun c => match c with (ERR_NO, t, _) => t =? MTYPE_JOIN_ACCEPT | _ => false end) (callbacks es).
Definition joined_step (b : bool) (t : entry) : bool :=
  match t with
  | (OInit _, _, _) => false
  | (OSetSession _ _ _ _ _, _, _) => true
  | (OJoin, VErr ERR_NO, _) => false
  | (_, _, es) => if accepts_join_b es then true else b
  end.
Definition joined_after (tr : list entry) : bool := fold_left joined_step tr false.

(** the join-request last sent, and the AppKey last given *)
Definition join_step (a : option (list Z)) (t : entry) : option (list Z) :=
  match t with
  | (OJoin, VErr ERR_NO, es) => match tx_frames es with f :: _ => Some f | [] => a end
  | _ => a
  end.
Definition last_join_request (tr : list entry) : option (list Z) := fold_left join_step tr None.
Definition key_step (k : list Z) (t : entry) : list Z :=
  match t with (OSetOtaa _ _ k', _, _) => k' | _ => k end.
Definition last_app_key (tr : list entry) : list Z := fold_left key_step tr (repeat 0 16).
(** the DevNonce field of a join-request *)
Definition request_nonce (f : list Z) : Z := unle (slice f 17 2).

(** ** What an accepted join-accept installs (LoRaWAN 6.2.5, 6.2.6). A data rate
    or offset outside 0..5 is ignored; RxDelay 0 means 1 s. *)
Record installed (E : env) (w w' : world) (key : list Z) (an ni addr dl rxd : Z) (cflist : list Z) (nonce : Z) : Prop :=
Mk_installed {
  in_joined : is_joined (ses w') = true;
  in_addr : dev_addr (ses w') = addr;
  in_counters : f_cnt_up (ses w') = 0 /\ f_cnt_down (ses w') = 0;
  in_nwk : nwk_s_key (ses w') = session_key (e_aes E) 1 key an ni nonce;
  in_app : app_s_key (ses w') = session_key (e_aes E) 2 key an ni nonce;
  in_ack : ack_required (ses w') = false;
  in_dr : ses_dr (ses w') = default_dr (stk w);
  in_off : uw_rx1_offset (stk w') = if dl / 16 mod 8 <? 6 then dl / 16 mod 8 else uw_rx1_offset (stk w);
  in_rx2 : uw_rx2_dr (stk w') = if dl mod 16 <? 6 then dl mod 16 else uw_rx2_dr (stk w);
  in_delay : default_rx1_delay (stk w') = 1000 * Z.max 1 (rxd mod 16);
  in_table : exists r, uw_region (stk w) = Some r /\
               table w' = match cflist with [] => table w | _ => cflist_apply r cflist (table w) end;
  in_idle : idle w' /\ joining w' = false;
  in_rest : s_adr (w_st w') = s_adr (w_st w) /\ s_mac (w_st w') = s_mac (w_st w) /\ s_cs (w_st w') = s_cs (w_st w) /\
    exists off dr del, but_transient (stk w') =
      set_default_rx1_delay del (set_uw_rx2_dr dr (set_uw_rx1_offset off (but_transient (stk w))))
}.

(** ** Received data frames *)
(** a frame whose header claims a confirmed data downlink *)
Definition fr_confirmedb (d : list Z) : bool :=
  (12 <=? length d)%nat && (at_ d 0 mod 4 =? 0) && (at_ d 0 / 32 =? 5).
(** what must hold of a frame for it to be authentic for the session of [w]
    with the 32-bit counter [c] *)
Definition authentic (E : env) (w : world) (d : list Z) (c : Z) : Prop :=
  (12 <= length d)%nat /\ fr_down d /\ fr_sized d /\ fr_addr d = dev_addr (ses w) /\ fr_cnt16 d = c mod 65536 /\
  fr_mic d = data_mic (e_cmac E) (nwk_s_key (ses w)) DOWN (dev_addr (ses w)) c (fr_body d).
(** FPort and FRMPayload of a frame; None when there is no FPort *)
Definition fr_frm (d : list Z) : option (Z * list Z) :=
  match skipn (8 + fr_fopts_len d) (fr_body d) with [] => None | p :: l => Some (p, l) end.
(** what the application is told about a frame with counter [c] *)
Definition fr_view (E : env) (w : world) (d : list Z) (c rssi snr : Z) : dlview :=
  match fr_frm d with
  | None => Mk_dlview None 0 0 rssi snr
  | Some (p, l) =>
      Mk_dlview (Some (crypt (e_aes E) (down_key (nwk_s_key (ses w)) (app_s_key (ses w)) p) DOWN (dev_addr (ses w)) c l))
        (len l) p rssi snr
  end.
(** session parts a frame must not change *)
Definition same_keys (w w' : world) : Prop :=
  dev_addr (ses w') = dev_addr (ses w) /\ nwk_s_key (ses w') = nwk_s_key (ses w) /\ app_s_key (ses w') = app_s_key (ses w) /\
  f_cnt_up (ses w') = f_cnt_up (ses w) /\ is_joined (ses w') = is_joined (ses w).
(** nothing but the pending acknowledgement differs *)
Definition kept_but_ack (w w' : world) (ack : bool) : Prop :=
  s_ch (w_st w') = s_ch (w_st w) /\ s_adr (w_st w') = s_adr (w_st w) /\ s_mac (w_st w') = s_mac (w_st w) /\
  ses w' = set_ack_required ack (ses w) /\ s_cs (w_st w') = s_cs (w_st w) /\ but_transient (stk w') = but_transient (stk w).
(** what neither a MAC command nor a frame counter touches: handlers, identity,
    defaults, clock synchronisation *)
Definition outside (k : stackst) : stackst :=
  set_uw_rx1_offset 0 (set_uw_rx2_frequency 0 (set_uw_rx2_dr 0 (set_default_rx1_delay 0 (set_uw_nb_trans 0
    (set_uw_tx_power 0 (set_current_snr 0 (but_transient k))))))).
Definition untouched (w w' : world) : Prop :=
  s_cs (w_st w') = s_cs (w_st w) /\ mac_cbs (s_mac (w_st w')) = mac_cbs (s_mac (w_st w)) /\
  mac_save_dev_time (s_mac (w_st w')) = mac_save_dev_time (s_mac (w_st w)) /\
  mac_dev_time (s_mac (w_st w')) = mac_dev_time (s_mac (w_st w)) /\ outside (stk w') = outside (stk w).
(** the ACK bit of a data frame *)
Definition fr_ack (f : list Z) : bool := Z.testbit (at_ f 5) 5.
(** a confirmed downlink header was received somewhere in the execution *)
Definition confirmed_seen (E : env) (w : world) (ops : list op) (tr : list entry) : Prop :=
  exists ops1 tr1 wa m es wb ops2 tr2,
    ops = ops1 ++ OIrq m :: ops2 /\ tr = tr1 ++ (OIrq m, VUnit, es) :: tr2 /\ exec E w ops1 tr1 wa /\
    step E wa (OIrq m) = Some (VUnit, es, wb) /\ receives wa m /\ joining wa = false /\
    fr_confirmedb (rx_data (received E wa)) = true.
(** the data frames delivered to the application in an execution, as received *)
Definition reads (es : list ev) : list (list Z) := flat_map (fun e => match e with RRead p => [rx_data p] | _ => [] end) es.
Definition delivered (tr : list entry) : list (list Z) :=
  flat_map (fun t => match callbacks (snd t) with
                     | [(ERR_NO, ty, _)] => if ty =? MTYPE_JOIN_ACCEPT then [] else reads (snd t)
                     | _ => [] end) tr.
