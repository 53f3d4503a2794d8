(** Prop_Rep.v -- number of transmissions (C77), key of an uplink's payload (C78) *)
From Verif Require Import SpecRep LDown3 LUp4 Demo Prop_Join Prop_Down Prop_Uplink.

(** ** C77 Repeated transmission
    Refuted: the number set with uwan_set_nb_trans() or by LinkADRReq is stored and
    never looked at (src/stack.c:670 "TODO take into account nbTrans"). *)
Theorem C77_refuted : ~ (forall E w port d es ops tr w',
  env_ok E -> reachable E w -> Forall op_wf (OSend port d false :: ops) ->
  exec E w (OSend port d false :: ops) ((OSend port d false, VErr ERR_NO, es) :: tr) w' ->
  hardware_only tr = true -> no_frame tr = true -> until_report tr = true ->
  Z.of_nat (length (tx_frames es ++ transmissions tr)) = uw_nb_trans (stk w)).
Proof.
  intro C. set (E := demo [] []). set (pre := abp 0 0 ++ [OSetNb 3]). set (ops := [OIrq 4; OTimer TIMER_RX1; OIrq 1; OTimer TIMER_RX2; OIrq 1]).
  destruct (run_intro E pre (OSend 1 [7] false :: ops) (fun w0 tr w => match tr with
     | (OSend 1 [7] false, VErr ERR_NO, es) :: tr' => hardware_only tr' && no_frame tr' && until_report tr' && (length (tx_frames es ++ transmissions tr') =? 1)%nat && (uw_nb_trans (stk w0) =? 3)
     | _ => false end)) as (tr & w & A & B & Hw & D & F); [apply demo_ok|vm_compute; reflexivity|].
  remember (after E pre) as w0 eqn:Ew. clear Ew. destruct tr as [|[[o v] es] tr]; [discriminate F|].
  inversion D as [|? ? ? ? ? ? ? ? Hs He]; subst. clear D.
  assert (Q : v = VErr ERR_NO) by (destruct v as [| | |[]]; try discriminate F; reflexivity). subst v. ands F.
  match goal with X : (length _ =? 1)%nat = true |- _ => apply Nat.eqb_eq in X; rename X into L end.
  assert (X := C E w0 1 [7] es ops tr w A B Hw (exec_cons _ _ _ _ _ _ _ _ _ Hs He)). rewrite L in X. lia.
Qed.
Print Assumptions C77_refuted.
(** What does hold: every accepted call - confirmed, unconfirmed or join - is one
    transmission, and there are no others. Missing: the repetitions. *)
Theorem C77_once_partial E w ops tr w' : env_ok E -> reachable E w -> Forall op_wf ops -> exec E w ops tr w' ->
  Forall (fun t => length (tx_frames (snd t)) = if accepted_call t then 1%nat else 0%nat) tr /\
  length (transmissions tr) = length (filter accepted_call tr).
Proof.
  intros HE Hr Hw H. assert (F : Forall (fun t => length (tx_frames (snd t)) = if accepted_call t then 1%nat else 0%nat) tr).
  { induction H as [w|w o ops v es w1 tr w2 Hs He IH]; [constructor|]. inversion Hw as [|? ? Ho Hw']; subst.
    pose proof (reach_Inv E w HE Hr) as HI. constructor; [|apply IH; [exact (step_reach E w o v es w1 Hr Ho Hs)|exact Hw']]. cbn [snd].
    destruct (step_tx E w o v es w1 HE HI Ho Hs) as [p d c h1 s1 S|A B C D G1 G2|A B].
    - destruct (sent_obs _ _ _ _ _ _ _ _ _ _ _ _ S) as (-> & _). destruct S as [Hcall Hval _ _ _ _ _ _ _ _ _ _ _]. subst v. destruct o; try discriminate Hcall; reflexivity.
    - subst. destruct (join_obs E (w_hist w) (w_st w)) as (-> & _). reflexivity.
    - rewrite A. destruct (accepted_call (o, v, es)) eqn:Q; [|reflexivity]. exfalso. destruct o; try discriminate Q;
        (destruct B as [B _]; [auto|]; destruct v as [| | |[]]; try discriminate Q; congruence). }
  split; [exact F|]. unfold transmissions. clear - F. induction F as [|t tr Ht F IH]; [reflexivity|]. cbn [flat_map filter]. rewrite app_length, IH, Ht.
  destruct (accepted_call t); reflexivity.
Qed.
Print Assumptions C77_once_partial.
(** with three transmissions asked for by the network: an unconfirmed and a confirmed uplink, a refused call *)
Example C77_once_case : run_of (demo [] [(dl 1 false 0 [3; 80; 7; 0; 3] None, 9)]) (abp 0 0 ++ after_uplink ++ [OIrq 2])
  [OSend 1 [7] false; OSend 1 [8] false; OIrq 4; OTimer TIMER_RX1; OIrq 1; OTimer TIMER_RX2; OIrq 1; OSend 1 [9] true]
  (fun w tr w' => (uw_nb_trans (stk w) =? 3) && (length (transmissions tr) =? 2)%nat && (length (filter accepted_call tr) =? 2)%nat).
Proof. show_run. Qed.

(** ** C78 Uplinks on port 0
    Refuted: the payload is encrypted with the AppSKey whatever the port
    (src/stack.c:697), so the network server cannot read what is sent on port 0. *)
Theorem C78_refuted : ~ (forall E w port payload confirm es w',
  env_ok E -> reachable E w -> op_wf (OSend port payload confirm) ->
  step E w (OSend port payload confirm) = Some (VErr ERR_NO, es, w') ->
  exists f, tx_frames es = [f] /\
    server_receive (e_aes E) (e_cmac E) (nwk_s_key (ses w)) (port_key (ses w) port) (dev_addr (ses w)) (f_cnt_up (ses w)) f =
    Some (Mk_uplink confirm (adr_on w) (adr_ack_due w) (ack_required (ses w)) (fopts w) (match payload with [] => None | _ => Some (port, payload) end))).
Proof.
  intro C. set (E := demo [] []).
  destruct (case_intro E (abp 0 0) (OSend 0 [2] false) (fun w v es w' => returns ERR_NO v && match tx_frames es with [f] =>
     match server_receive (e_aes E) (e_cmac E) (nwk_s_key (ses w)) (port_key (ses w) 0) (dev_addr (ses w)) (f_cnt_up (ses w)) f with
     | Some u => match u_data u with Some (_, d) => negb (list_eqb d [2]) | None => false end | None => true end | _ => false end))
    as (v & es & w' & A & B & Hw & Hs & F); [apply demo_ok|vm_compute; reflexivity|].
  remember (after E (abp 0 0)) as w eqn:Ew. clear Ew. ands F. assert (v = VErr ERR_NO) as -> by (destruct v as [| | |[]]; try discriminate F; reflexivity).
  destruct (C E w 0 [2] false es w' A B Hw Hs) as (f & T & X). rewrite T, X in *. cbn in *. discriminate.
Qed.
Print Assumptions C78_refuted.
(** port 0 is accepted together with queued MAC answers, which the server must discard *)
Theorem C78_fopts_refuted : ~ (forall E w payload confirm es w',
  env_ok E -> reachable E w -> op_wf (OSend 0 payload confirm) -> step E w (OSend 0 payload confirm) = Some (VErr ERR_NO, es, w') -> payload <> [] -> fopts w = []).
Proof.
  intro C. set (E := demo [] []).
  destruct (case_intro E (abp 0 0 ++ [OLinkCheckReq]) (OSend 0 [2] false) (fun w v es w' => returns ERR_NO v && negb (is_nil (fopts w))))
    as (v & es & w' & A & B & Hw & Hs & F); [apply demo_ok|vm_compute; reflexivity|].
  remember (after E (abp 0 0 ++ [OLinkCheckReq])) as w eqn:Ew. clear Ew. ands F. assert (v = VErr ERR_NO) as -> by (destruct v as [| | |[]]; try discriminate F; reflexivity).
  rewrite (C E w [2] false es w' A B Hw Hs) in *; discriminate.
Qed.
Print Assumptions C78_fopts_refuted.
(** What does hold: ports 1 to 255. *)
Theorem C78_ports_partial E w port payload confirm es w' : env_ok E -> reachable E w -> op_wf (OSend port payload confirm) -> port <> 0 ->
  step E w (OSend port payload confirm) = Some (VErr ERR_NO, es, w') ->
  exists f, tx_frames es = [f] /\
    server_receive (e_aes E) (e_cmac E) (nwk_s_key (ses w)) (port_key (ses w) port) (dev_addr (ses w)) (f_cnt_up (ses w)) f =
    Some (Mk_uplink confirm (adr_on w) (adr_ack_due w) (ack_required (ses w)) (fopts w) (match payload with [] => None | _ => Some (port, payload) end)).
Proof.
  intros HE Hr Hw N H. unfold port_key. destruct (Z.eqb_spec port 0); [contradiction|]. exact (C02_server_decodes E w port payload confirm es w' HE Hr Hw H).
Qed.
Print Assumptions C78_ports_partial.
Example C78_ports_case : case_of (demo [] []) (abp 70000 0 ++ [OLinkCheckReq]) (OSend 223 (repeat 6 20) false)
  (fun w v es w' => returns ERR_NO v && negb (list_eqb (nwk_s_key (ses w)) (app_s_key (ses w))) && list_eqb (port_key (ses w) 223) k2).
Proof. show_case. Qed.
