(** Prop_Uplink.v -- uplink frames, counters, result codes (C01 - C05), the
    join-request (C25) and transmit power (C39). *)
From Verif Require Import LUp4 Demo.

(** ** C01 Uplink frame layout *)
Theorem C01_uplink_layout : forall E w port payload confirm es w',
  env_ok E -> reachable E w -> op_wf (OSend port payload confirm) ->
  step E w (OSend port payload confirm) = Some (VErr ERR_NO, es, w') ->
  tx_frames es =
    [uplink_frame (e_aes E) (e_cmac E) (nwk_s_key (ses w)) (app_s_key (ses w)) (dev_addr (ses w)) (f_cnt_up (ses w))
       confirm (adr_on w) (adr_ack_due w) (ack_required (ses w)) (fopts w) port payload].
Proof. exact C01_uplink_layout_pf. Qed.
Print Assumptions C01_uplink_layout.

(** a confirmed uplink on port 2, counter 65543, with a queued LinkCheckReq *)
Example C01_layout_case :
  case_of (demo [4; 1] []) (abp 65543 0 ++ [OLinkCheckReq; OAdrEnable true]) (OSend 2 [1; 2; 3] true)
    (fun w v es w' => returns ERR_NO v &&
       list_eqb (firstn 10 (hd [] (tx_frames es))) [128; 1; 16; 1; 38; 129; 7; 0; 2; 2]).
Proof. show_case. Qed.

(** the same for every call that sends, including clock synchronisation *)
Theorem C01_every_uplink : forall E w o v es w',
  env_ok E -> reachable E w -> op_wf o -> o <> OJoin ->
  step E w o = Some (v, es, w') ->
  tx_frames es = [] \/
  exists confirm port payload, is_u8 port /\ bytes_ok payload /\ tx_frames es =
    [uplink_frame (e_aes E) (e_cmac E) (nwk_s_key (ses w)) (app_s_key (ses w)) (dev_addr (ses w)) (f_cnt_up (ses w))
       confirm (adr_on w) (adr_ack_due w) (ack_required (ses w)) (fopts w) port payload].
Proof. exact C01_every_uplink_pf. Qed.
Print Assumptions C01_every_uplink.

Example C01_every_case :
  case_of (demo [] []) (abp 9 0 ++ [OCsInit (Some (Mk_cs_cbs true))]) (OCsSendReq true)
    (fun w v es w' => (length (tx_frames es) =? 1)%nat).
Proof. show_case. Qed.

(** ** C02 Uplink payload can be decrypted by the server *)
Theorem C02_server_decodes : forall E w port payload confirm es w',
  env_ok E -> reachable E w -> op_wf (OSend port payload confirm) ->
  step E w (OSend port payload confirm) = Some (VErr ERR_NO, es, w') ->
  exists f, tx_frames es = [f] /\
    server_receive (e_aes E) (e_cmac E) (nwk_s_key (ses w)) (app_s_key (ses w)) (dev_addr (ses w)) (f_cnt_up (ses w)) f =
    Some (Mk_uplink confirm (adr_on w) (adr_ack_due w) (ack_required (ses w)) (fopts w)
            (match payload with [] => None | _ => Some (port, payload) end)).
Proof. exact C02_server_decodes_pf. Qed.
Print Assumptions C02_server_decodes.

Example C02_decode_case :
  case_of (demo [] []) (abp 4294967295 0) (OSend 7 (repeat 170 40) false)
    (fun w v es w' => returns ERR_NO v &&
       match server_receive toy_aes toy_cmac k1 k2 637603841 4294967295 (hd [] (tx_frames es)) with
       | Some u => match u_data u with Some (p, d) => (p =? 7) && list_eqb d (repeat 170 40) | None => false end
       | None => false
       end).
Proof. show_case. Qed.

(** ** C03 Uplink counter advances exactly once per transmission *)
Theorem C03_counter_step : forall E w o v es w',
  env_ok E -> reachable E w -> op_wf o -> step E w o = Some (v, es, w') ->
  ~ new_session_entry (o, v, es) ->
  f_cnt_up (ses w') =
    (f_cnt_up (ses w) + (if is_uplink_call o && match v with VErr ERR_NO => true | _ => false end then 1 else 0))
    mod 4294967296.
Proof. exact C03_counter_step_pf. Qed.
Print Assumptions C03_counter_step.

Theorem C03_trace_counters : forall E w ops tr w',
  env_ok E -> reachable E w -> Forall op_wf ops -> exec E w ops tr w' ->
  Forall (fun t => ~ new_session_entry t) tr ->
  let n := length (data_frames tr) in
  Forall2 (uplink_with E (ses w)) (counters (f_cnt_up (ses w)) n) (data_frames tr) /\
  f_cnt_up (ses w') = (f_cnt_up (ses w) + Z.of_nat n) mod 4294967296 /\
  (Z.of_nat n <= 4294967296 -> NoDup (counters (f_cnt_up (ses w)) n)).
Proof. exact C03_trace_counters_pf. Qed.
Print Assumptions C03_trace_counters.

(** three uplinks across the 32-bit wrap, a refused one and a failed reception in between *)
Example C03_trace_case :
  run_of (demo [] [([96; 0; 0; 0; 0; 0; 0; 0; 0; 0; 0; 0], 3)]) (abp 4294967294 0)
    [OSend 1 [5] false; OSend 1 [6] false; OIrq 4; OIrq 2; OSend 1 [7] true; OIrq 4; OIrq 1; OIrq 1; OSend 1 [8] false]
    (fun w tr w' => (length (data_frames tr) =? 3)%nat && (f_cnt_up (ses w') =? 1) &&
       forallb (fun t => is_nil (filter (fun c => is_ERR_NO (fst (fst c))) (callbacks (snd t)))) tr).
Proof. show_run. Qed.

(** ** C04 Uplink size and result code *)
Theorem C04_max_payload : forall E w,
  env_ok E -> reachable E w ->
  step E w OGetMax = Some (VNum (max_payload w), [], w) /\ 36 <= max_payload w <= 222.
Proof. exact C04_max_payload_pf. Qed.
Print Assumptions C04_max_payload.

Theorem C04_result_code : forall E w port payload confirm,
  env_ok E -> reachable E w -> op_wf (OSend port payload confirm) -> idle w ->
  exists e es w', step E w (OSend port payload confirm) = Some (VErr e, es, w') /\ send_result w payload e.
Proof. exact C04_result_code_pf. Qed.
Print Assumptions C04_result_code.

Theorem C04_frame_size : forall E w o v es w' f,
  env_ok E -> reachable E w -> op_wf o -> step E w o = Some (v, es, w') ->
  In f (tx_frames es) -> 12 <= len f <= 235.
Proof. exact C04_frame_size_pf. Qed.
Print Assumptions C04_frame_size.

(** all three results occur *)
Example C04_len_case : case_of (demo [] []) (abp 0 0) (OSend 1 (repeat 0 52) false)
  (fun w v es w' => returns ERR_MSG_LEN v && (max_payload w =? 51)).
Proof. show_case. Qed.
Example C04_channel_case :
  case_of (demo [] []) (abp 0 0 ++ [OEnableChannel 0 false; OEnableChannel 1 false; OEnableChannel 2 false])
    (OSend 1 [1] false) (fun w v es w' => returns ERR_CHANNEL v).
Proof. show_case. Qed.
Example C04_ok_case : case_of (demo [] []) (abp 0 0 ++ [OSetDr 5; OLinkCheckReq]) (OSend 1 (repeat 0 221) false)
  (fun w v es w' => returns ERR_NO v && (len (hd [] (tx_frames es)) =? 235)).
Proof. show_case. Qed.

(** ** C05 Refused calls have no effect *)
Theorem C05_refused_inert : forall E w o e es w',
  env_ok E -> reachable E w -> op_wf o -> (exists p d c, o = OSend p d c) \/ o = OJoin ->
  step E w o = Some (VErr e, es, w') -> e <> ERR_NO ->
  w_st w' = w_st w /\ (es = [] \/ exists r, es = [LRand r]).
Proof. exact C05_refused_inert_pf. Qed.
Print Assumptions C05_refused_inert.

Theorem C05_busy : forall E w o,
  env_ok E -> reachable E w -> op_wf o -> (exists p d c, o = OSend p d c) \/ o = OJoin ->
  ~ idle w -> step E w o = Some (VErr ERR_STATE, [], w).
Proof. exact C05_busy_pf. Qed.
Print Assumptions C05_busy.

Example C05_refused_case : case_of (demo [77] []) (abp 0 0 ++ [OLinkCheckReq]) (OSend 1 (repeat 0 51) false)
  (fun w v es w' => returns ERR_MSG_LEN v && match es with [LRand 77] => true | _ => false end).
Proof. show_case. Qed.
Example C05_busy_case : case_of (demo [] []) (abp 0 0 ++ [OSend 1 [1] false; OIrq 4]) OJoin
  (fun w v es w' => returns ERR_STATE v && is_nil es).
Proof. show_case. Qed.

(** ** C25 Join-request layout: the DevNonce is the draw of rand() made for this
    request, after the one for the channel *)
Theorem C25_join_request : forall E w es w',
  env_ok E -> reachable E w -> step E w OJoin = Some (VErr ERR_NO, es, w') ->
  exists c r, filter is_draw es = [LRand c; LRand r] /\ uw_dev_nonce (stk w') = r mod 65536 /\
    tx_frames es = [join_request (e_cmac E) (uw_app_eui (stk w)) (uw_dev_eui (stk w)) (uw_app_key (stk w)) (r mod 65536)].
Proof. exact C25_join_request2_pf. Qed.
Print Assumptions C25_join_request.

Theorem C25_otaa_keys : forall E w o v es w',
  env_ok E -> reachable E w -> op_wf o -> step E w o = Some (v, es, w') ->
  let ids w := (uw_dev_eui (stk w), uw_app_eui (stk w), uw_app_key (stk w)) in
  match o with
  | OSetOtaa d a k => ids w' = (d, a, k)
  | _ => ids w' = ids w
  end.
Proof. exact C25_otaa_keys_pf. Qed.
Print Assumptions C25_otaa_keys.

Example C25_join_case : case_of (demo [1; 258] []) (otaa RU864) OJoin
  (fun w v es w' => returns ERR_NO v &&
     list_eqb (firstn 19 (hd [] (tx_frames es))) ([0] ++ eui2 ++ rev eui1 ++ [2; 1])).
Proof. show_case. Qed.

(** ** C39 Transmit power
    Full statement: the hypothesis [-128 <= ...] removed. It fails because
    apply_tx_power (src/stack.c) converts the difference to int8_t. *)
Theorem C39_tx_power_partial : forall E w o v es w',
  env_ok E -> reachable E w -> op_wf o -> step E w o = Some (v, es, w') -> tx_frames es <> [] ->
  -128 <= default_max_eirp (stk w) - 2 * uw_tx_power (stk w) ->
  exists freq prm f,
    transmits es freq prm (default_max_eirp (stk w) - 2 * uw_tx_power (stk w)) f.
Proof. exact C39_tx_power_partial_pf. Qed.
Print Assumptions C39_tx_power_partial.

Example C39_power_case : case_of (demo [] []) (abp 0 0 ++ [OSetEirp 16; OSetTxp 5]) (OSend 1 [1] false)
  (fun w v es w' => match powers es with [6] => true | _ => false end).
Proof. show_case. Qed.
Theorem C39_tx_power_refuted : exists E w o v es w',
  env_ok E /\ reachable E w /\ op_wf o /\ step E w o = Some (v, es, w') /\
  (tx_frames es <> [] /\ powers es = [126] /\ default_max_eirp (stk w) - 2 * uw_tx_power (stk w) = -130).
Proof. exact C39_tx_power_refuted_pf. Qed.
Print Assumptions C39_tx_power_refuted.
