(** Prop_Mac.v -- MAC commands: C09, C16 - C20, C22. *)
From Verif Require Import LCmd Prop_Down.

(** ** C09 MAC answers are transported once, in order, whole *)
(** The two requests of the API: accepted iff one byte is free, and then appended. *)
Theorem C09_requests : forall E w o cid,
  env_ok E -> reachable E w -> (o = OLinkCheckReq /\ cid = 2 \/ o = ODevTimeReq /\ cid = 13) ->
  exists w', step E w o = Some (VBool (len (fopts w) <? 15), [], w') /\
    fopts w' = if len (fopts w) <? 15 then fopts w ++ [cid] else fopts w.
Proof.
  intros E w o cid HE Hr Ho. pose proof (reach_Inv E w HE Hr) as HI. pose proof (iv_mac _ HI) as HM.
  assert (X : exists v es w', step E w o = Some (v, es, w')).
  { destruct Ho as [[-> _]|[-> _]]; unfold step; (erewrite simple_ok; [|exact HI|exact I|reflexivity]); eauto. }
  destruct X as (v & es & w' & X). exists w'.
  assert (Hw : op_wf o) by (destruct Ho as [[-> _]|[-> _]]; exact I).
  assert (Q : queued (fopts w) [cid] = if len (fopts w) <? 15 then fopts w ++ [cid] else fopts w).
  { unfold queued. change (len [cid]) with 1. destruct (Z.leb_spec (len (fopts w) + 1) 15), (Z.ltb_spec (len (fopts w)) 15); lia || reflexivity. }
  rewrite <- Q.
  assert (F : p_fits [] (s_mac (w_st w)) = (len (fopts w) <? 15)) by (apply fits_queue; exact HM).
  destruct (step_mac E w o v es w' HE HI Hw X) as [_ _ _ N1 N2|r N _ _|f N _ _ _|A B C D|A B C D|c N _ _|m N _ _ _ _ _ _|m N _ _ _ _ _];
    destruct Ho as [[-> ->]|[-> ->]]; try discriminate; try contradiction.
  - subst v es. rewrite X, F. split; [reflexivity|]. change (fopts w') with (queue (s_mac (w_st w'))). rewrite D, enq_queued by exact HM. reflexivity.
  - subst v es. rewrite X, F. split; [reflexivity|]. change (fopts w') with (queue (s_mac (w_st w'))). rewrite D.
    change (queue (p_enq 13 [] (s_mac (w_st w))) = queued (fopts w) [13]). apply enq_queued. exact HM.
Qed.
Print Assumptions C09_requests.

(** What every call does to the queue: it is emptied by uwan_init, carried whole
    and then emptied by a data uplink, and otherwise only extended at its end, by
    whole answers, in a request or on reception of a data frame. *)
Theorem C09_queue_step : forall E w o v es w',
  env_ok E -> reachable E w -> op_wf o -> step E w o = Some (v, es, w') ->
  len (fopts w) <= 15 /\
  ((exists r, o = OInit r /\ fopts w' = []) \/
   (exists f, data_frames [(o, v, es)] = [f] /\ fr_fopts f = fopts w /\ fopts w' = []) \/
   (data_frames [(o, v, es)] = [] /\
    exists chunks, fopts w' = fopts w ++ concat chunks /\ Forall mac_answer chunks /\
      (chunks <> [] -> (o = OLinkCheckReq /\ chunks = [[2]]) \/ (o = ODevTimeReq /\ chunks = [[13]]) \/
                       exists m, o = OIrq m /\ receives w m /\ joining w = false))).
Proof.
  intros E w o v es w' HE Hr Hw H. pose proof (reach_Inv E w HE Hr) as HI. split; [apply fopts_len; exact HI|].
  destruct (step_queue E w o v es w' HE HI Hw H) as [(r & A & B & _)|[(f & A & B & C & _)|(A & _ & ch & B & C & D)]].
  - left. eauto.
  - right. left. eauto.
  - right. right. split; [exact A|]. exists ch. split; [exact B|]. split; [exact C|]. intro N.
    destruct (D N) as [(D1 & _ & D2)|[(D1 & _ & D2)|D1]]; auto.
Qed.
Print Assumptions C09_queue_step.

(** First in, first out along every execution: what was queued at the start,
    followed by the whole answers queued on the way, is what the uplinks carried,
    in order, followed by what is still queued. *)
Theorem C09_fifo : forall E w ops tr w',
  env_ok E -> reachable E w -> Forall op_wf ops -> exec E w ops tr w' ->
  Forall (fun t => ~ is_init t) tr ->
  exists chunks, Forall mac_answer chunks /\ fopts w ++ concat chunks = sent_fopts tr ++ fopts w'.
Proof. intros E w ops tr w' HE Hr Hw Hx Hn. exact (exec_queue E w ops tr w' HE (reach_Inv E w HE Hr) Hw Hx Hn). Qed.
Print Assumptions C09_fifo.
(** a request, an uplink carrying it, a DevStatusReq answered in the next uplink
    behind a further request *)
Example C09_case : run_of (demo [] [(dl 8 false 0 [6] None, 9)]) (abp 0 7)
  [OLinkCheckReq; OSend 1 [7] false; OIrq 4; ODevTimeReq; OIrq 2; OLinkCheckReq; OSend 1 [8] false]
  (fun w tr w' => is_nil (fopts w) && is_nil (fopts w') &&
     match data_frames tr with
     | [f; g] => list_eqb (fr_fopts f) [2] && list_eqb (fr_fopts g) [13; 6; 255; 9; 2]
     | _ => false
     end).
Proof. show_run. Qed.
(** a full queue refuses the request *)
Example C09_full_case : case_of (demo [] []) (abp 0 7 ++ repeat OLinkCheckReq 15) OLinkCheckReq
  (fun w v es w' => (len (fopts w) =? 15) && match v with VBool false => true | _ => false end && list_eqb (fopts w') (fopts w)).
Proof. show_case. Qed.

(** ** C16 MAC command parser *)
Tactic Notation "step16" integer(n) :=
  match goal with |- context [Nat.ltb (length ?r) ?k] =>
    destruct (Nat.ltb_spec (length r) k) as [Hl|Hl];
    [do 5 (try (destruct r as [|? r]; [reflexivity|cbn [length] in Hl])); lia
    |do n (destruct r as [|? r]; [cbn [length] in Hl; lia|cbn [length] in Hl]);
     eexists; (split; [reflexivity|]); intros r' Hr';
     do n (destruct r' as [|? r']; [cbn [firstn] in Hr'; discriminate|]); cbn [firstn] in Hr';
     injection Hr'; intros; subst; reflexivity]
  end.
(** The reference parser reads a command identifier and exactly as many bytes as
    LoRaWAN prescribes for it, and stops at an unknown or truncated command. *)
Theorem C16_parser : forall l,
  match l with
  | [] => mac_parse l = []
  | cid :: r =>
      match payload_size cid with
      | None => mac_parse l = []
      | Some n => if (length r <? n)%nat then mac_parse l = []
                  else exists c, mac_parse l = c :: mac_parse (skipn n r) /\
                         forall r', firstn n r' = firstn n r -> mac_parse (cid :: r') = c :: mac_parse (skipn n r')
      end
  end.
Proof.
  intros [|cid r]; [reflexivity|]. unfold payload_size.
  assert (L : forall n (r' : list Z), (n <= length r)%nat -> firstn n r' = firstn n r -> (n <= length r')%nat).
  { intros n r' H1 H2. pose proof (f_equal (@length Z) H2) as H3. rewrite !firstn_length in H3. lia. }
  destruct (Z.eqb_spec cid 2) as [->|]; [|destruct (Z.eqb_spec cid 3) as [->|]; [|destruct (Z.eqb_spec cid 4) as [->|];
    [|destruct (Z.eqb_spec cid 5) as [->|]; [|destruct (Z.eqb_spec cid 6) as [->|]; [|destruct (Z.eqb_spec cid 7) as [->|];
    [|destruct (Z.eqb_spec cid 8) as [->|]; [|destruct (Z.eqb_spec cid 9) as [->|]; [|destruct (Z.eqb_spec cid 10) as [->|];
    [|destruct (Z.eqb_spec cid 13) as [->|]]]]]]]]]].
  11: { cbn [mac_parse]. repeat match goal with |- context [cid =? ?k] => destruct (Z.eqb_spec cid k); [contradiction|] end. reflexivity. }
  1: step16 2. 1: step16 4. 1: step16 1. 1: step16 4.
  1: { exists DevStatusReq. split; [reflexivity|intros r' _; reflexivity]. }
  1: step16 5. 1: step16 1. 1: step16 1. 1: step16 4. 1: step16 5.
Qed.
Print Assumptions C16_parser.

(** Every data frame with a valid header for this device is handled to the end, and the
    commands in its FOpts have exactly the effect of the reference semantics
    [mac_run] on the commands found by the reference parser; any other frame
    executes no command. *)
Theorem C16_commands : forall E w m,
  env_ok E -> reachable E w -> op_wf (OIrq m) -> e_strict_shl E = false -> receives w m -> joining w = false ->
  exists es w', step E w (OIrq m) = Some (VUnit, es, w') /\
    let d := rx_data (received E w) in
    let header_ok := (12 <= length d)%nat /\ fr_down d /\ fr_sized d /\ fr_addr d = dev_addr (ses w) /\
      (f_cnt_down (ses w) = 0 \/ fr_cnt16 d <> f_cnt_down (ses w) mod 65536) in
    (header_ok -> (dev_w w', mac_calls es) =
       mac_run (rx_ctx E w) (cmd_hist E w) (mac_parse (fr_fopts d)) (dev_w w)) /\
    (~ header_ok -> dev_w w' = dev_w w /\ mac_calls es = []).
Proof.
  intros E w m HE Hr Hw Hs R J. pose proof (reach_Inv E w HE Hr) as HI.
  destruct (rx_total E w m HE Hs HI R) as (es & w' & H). exists es, w'. split; [exact H|]. cbv zeta.
  assert (G : fr_sized (rx_data (received E w)) -> (12 <= length (rx_data (received E w)))%nat -> 0 <= fr_cnt16 (rx_data (received E w)) < 65536).
  { intros _ L. rewrite fr_cnt16_d by (unfold len; lia). apply g16_range. apply (ok_pkt_byte E HE). }
  pose proof (data_outcome E w m _ es w' HE HI H R J) as O. remember (rx_data (received E w)) as d eqn:Ed.
  destruct O as [r t vw A B C D F K|r c t vw A1 A2 A3 A4 A5 A6 C K1 K2 K3 K4 K5].
  - split.
    + intros (G1 & G2 & G3 & G4 & G5). exfalso.
      destruct C as [[-> C]|[(-> & C1 & C2)|(C1 & C2 & [[-> C3]|(C3 & [[-> C4]|(-> & C4 & C5)])])]]; try (contradiction || lia).
      apply new_cnt_none in C5; [|auto]. destruct C5; destruct G5; contradiction.
    + intros _. split; [|exact F]. destruct K as (Q1 & _ & Q2 & Q3 & _ & Q4). unfold dev_w, dev_of, chan_table.
      unfold ses in Q3. rewrite Q1, Q2, Q3. unfold stk in Q4.
      destruct (s_stk (w_st w)), (s_stk (w_st w')). unfold but_transient in Q4. cbn in Q4. injection Q4 as. subst. reflexivity.
  - split; [intros _; exact K5|]. intro N. exfalso. apply N.
    split; [exact A1|]. split; [exact A2|]. split; [exact A3|]. split; [exact A4|].
    destruct (Z.eq_dec (f_cnt_down (ses w)) 0); [auto|right]. intro X.
    assert (X' : new_cnt (f_cnt_down (ses w)) (fr_cnt16 d) = None); [|congruence].
    apply new_cnt_none; auto.
Qed.
Print Assumptions C16_commands.

Example C16_case : case_of (demo [] [(dl 8 false 0 [6; 8; 3; 4; 10; 128] None, 9)]) (abp 0 7 ++ after_uplink) (OIrq 2)
  (fun w v es w' => recvb w 2 && negb (joining w) && list_eqb (fopts w') [6; 255; 9; 8; 4] && (default_rx1_delay (stk w') =? 3000)).
Proof. show_case. Qed.
(** unknown command 128: the rest is not executed *)
Example C16_unknown_case : case_of (demo [] [(dl 8 false 0 [6; 128; 8; 3] None, 9)]) (abp 0 7 ++ after_uplink) (OIrq 2)
  (fun w v es w' => list_eqb (fopts w') [6; 255; 9] && (default_rx1_delay (stk w') =? 1000)).
Proof. show_case. Qed.
(** the sixth answer does not fit: the commands after it are not executed *)
Example C16_full_case : case_of (demo [] [(dl 8 false 0 [6; 6; 6; 6; 6; 6; 8; 3] None, 9)]) (abp 0 7 ++ after_uplink) (OIrq 2)
  (fun w v es w' => (len (fopts w') =? 15) && (default_rx1_delay (stk w') =? 1000)).
Proof. show_case. Qed.

(** reading the observations of [w'] off an equation X : dev_w w' = fst (answer .. ..) *)
Lemma answer_eta a d : fst (answer a d) = Mk_dev (v_table d) (v_dr d) (v_power d) (v_nb d) (v_rx1_off d) (v_rx2_freq d) (v_rx2_dr d)
    (v_rx1_delay d) (queued (v_queue d) a).
Proof. unfold answer, queued. destruct (_ <=? 15); destruct d; reflexivity. Qed.
Ltac observe w w' X :=
  try rewrite answer_eta in X;
  assert (Ht : forall i, 0 <= i < 16 -> (chan_freq w' i, chan_on w' i) = nth (Z.to_nat i) (v_table (dev_w w')) (0, false)) by (intros; symmetry; apply table_nth; assumption);
  assert (Ht0 : forall i, 0 <= i < 16 -> nth (Z.to_nat i) (v_table (dev_w w)) (0, false) = (chan_freq w i, chan_on w i)) by (intros; apply table_nth; assumption);
  change (fopts w') with (v_queue (dev_w w')); unfold same_radio, same_rx, same_delay, same_chan;
  change (ses_dr (ses w')) with (v_dr (dev_w w')); change (uw_tx_power (stk w')) with (v_power (dev_w w'));
  change (uw_nb_trans (stk w')) with (v_nb (dev_w w')); change (uw_rx1_offset (stk w')) with (v_rx1_off (dev_w w'));
  change (uw_rx2_frequency (stk w')) with (v_rx2_freq (dev_w w')); change (uw_rx2_dr (stk w')) with (v_rx2_dr (dev_w w'));
  change (default_rx1_delay (stk w')) with (v_rx1_delay (dev_w w'));
  rewrite X in Ht |- *.
Ltac see := cbn [andb negb v_table v_dr v_power v_nb v_rx1_off v_rx2_freq v_rx2_dr v_rx1_delay v_queue] in *.
Ltac same_table Ht Ht0 := let i := fresh "i" in let Hi := fresh "Hi" in
  intros i Hi; specialize (Ht i Hi); rewrite Ht0 in Ht by exact Hi; injection Ht as -> ->; auto.

(** ** C17 LinkADRReq is all-or-nothing *)
Theorem C17_link_adr : forall E w m v es w' p m0 m1 r,
  env_ok E -> reachable E w -> op_wf (OIrq m) -> step E w (OIrq m) = Some (v, es, w') ->
  accepted_fopts E w m es [3; p; m0; m1; r] ->
  exists power_ok dr_ok mask_ok : bool,
    (power_ok = true <-> p mod 16 < 8) /\ (dr_ok = true <-> p / 16 < 6) /\
    (mask_ok = true <-> r / 16 mod 8 < 4 /\ forall i, 0 <= i < 16 -> Z.testbit (m0 + 256 * m1) i = true -> chan_freq w i <> 0) /\
    fopts w' = queued (fopts w) [3; (if power_ok then 4 else 0) + (if dr_ok then 2 else 0) + (if mask_ok then 1 else 0)] /\
    (if power_ok && dr_ok && mask_ok
     then ses_dr (ses w') = p / 16 /\ uw_tx_power (stk w') = p mod 16 /\
          uw_nb_trans (stk w') = (if r mod 16 =? 0 then default_nb_trans (stk w) else r mod 16) /\
          forall i, 0 <= i < 16 -> chan_on w' i = Z.testbit (m0 + 256 * m1) i /\ chan_freq w' i = chan_freq w i
     else same_radio w w' /\ same_chan w w') /\
    same_rx w w' /\ same_delay w w'.
Proof.
  intros E w m v es w' p m0 m1 r HE Hr Hw H Ha. pose proof (reach_Inv E w HE Hr) as HI.
  destruct (accepted_run E w m v es w' _ HE HI H Ha) as (X & _ & _).
  change (mac_parse [3; p; m0; m1; r]) with [LinkADRReq (p / 16) (p mod 16) (unle [m0; m1]) (r / 16 mod 8) (r mod 16)] in X.
  rewrite run_single in X. cbn [mac_exec fst snd] in X. apply (f_equal fst) in X. cbn [fst] in X.
  assert (Em : unle [m0; m1] = m0 + 256 * m1) by (cbn [unle]; lia). rewrite Em in X. set (mask := m0 + 256 * m1) in *.
  exists (p mod 16 <? 8), (p / 16 <? 6), (mask_mode (r / 16 mod 8) && mask_fits mask (v_table (dev_w w))).
  split; [lia|]. split; [lia|]. split.
  { rewrite andb_true_iff, mask_fits_iff. unfold mask_mode. change (v_table (dev_w w)) with (table w). rewrite table_length.
    split; intros [A B]; (split; [lia|]); intros i Hi Hb.
    - specialize (B (Z.to_nat i)). rewrite table_nth in B by lia. rewrite Z2Nat.id in B by lia. apply B; [lia|exact Hb].
    - pose proof (table_nth w (Z.of_nat i)) as T. rewrite Nat2Z.id in T. rewrite T by lia. apply B; [lia|exact Hb]. }
  remember (mask_mode (r / 16 mod 8) && mask_fits mask (v_table (dev_w w))) as mo.
  remember (p mod 16 <? 8) as po. remember (p / 16 <? 6) as dro. clear Heqmo Heqpo Heqdro.
  observe w w' X.
  unfold bits3, b2z. cbn [v_table v_dr v_power v_nb v_rx1_off v_rx2_freq v_rx2_dr v_rx1_delay v_queue] in *.
  destruct po, dro, mo; cbn [andb v_table v_dr v_power v_nb v_rx1_off v_rx2_freq v_rx2_dr v_rx1_delay v_queue] in *;
    (split; [reflexivity|]); (split; [|repeat split; reflexivity]).
  1: { repeat (split; [reflexivity|]). intros i Hi. specialize (Ht i Hi). rewrite mask_apply_nth in Ht.
       - rewrite Ht0, Z2Nat.id in Ht by lia. cbn [fst] in Ht. injection Ht as -> ->. auto.
       - change (v_table (dev_w w)) with (table w). rewrite table_length. lia. }
  all: split; [repeat split; reflexivity|]; intros i Hi; specialize (Ht i Hi); rewrite Ht0 in Ht by exact Hi; injection Ht as -> ->; auto.
Qed.
Print Assumptions C17_link_adr.

Definition on_list (w : world) : list Z := filter (chan_on w) (map Z.of_nat (seq 0 16)).
(** DR4, power 5, NbTrans 3, channels 1 and 2 *)
Example C17_applied_case : case_of (demo [] [(dl 8 false 0 [3; 69; 6; 0; 3] None, 9)]) (abp 0 7 ++ after_uplink) (OIrq 2)
  (fun w v es w' => recvb w 2 && cb_is ERR_NO es && list_eqb (fopts w') [3; 7] && (ses_dr (ses w') =? 4) &&
     (uw_tx_power (stk w') =? 5) && (uw_nb_trans (stk w') =? 3) && list_eqb (on_list w') [1; 2]).
Proof. show_case. Qed.
(** DR7 does not exist: only the DR bit is cleared and nothing changes *)
Example C17_bad_dr_case : case_of (demo [] [(dl 8 false 0 [3; 117; 6; 0; 3] None, 9)]) (abp 0 7 ++ after_uplink) (OIrq 2)
  (fun w v es w' => recvb w 2 && cb_is ERR_NO es && list_eqb (fopts w') [3; 5] && (ses_dr (ses w') =? ses_dr (ses w)) &&
     (uw_tx_power (stk w') =? uw_tx_power (stk w)) && list_eqb (on_list w') (on_list w)).
Proof. show_case. Qed.
(** channel 9 is not defined: only the mask bit is cleared *)
Example C17_bad_mask_case : case_of (demo [] [(dl 8 false 0 [3; 69; 1; 2; 3] None, 9)]) (abp 0 7 ++ after_uplink) (OIrq 2)
  (fun w v es w' => recvb w 2 && cb_is ERR_NO es && list_eqb (fopts w') [3; 6] && list_eqb (on_list w') (on_list w)).
Proof. show_case. Qed.

(** ** C18 LinkADRReq channel mask control *)
(** Full statement of the property, for a request whose data rate and power are
    valid and which fits the queue (so that the status is visible). *)
Definition C18_claim (w w' : world) (mask cntl : Z) : Prop :=
  let refused := fopts w' = fopts w ++ [3; 6] /\ same_radio w w' /\ same_chan w w' in
  (cntl = 0 -> mask = 0 -> refused) /\
  (cntl = 0 -> mask <> 0 ->
     (forall i, 0 <= i < 16 -> Z.testbit mask i = true -> chan_freq w i <> 0) ->
     fopts w' = fopts w ++ [3; 7] /\ forall i, 0 <= i < 16 -> chan_on w' i = Z.testbit mask i) /\
  (cntl = 0 -> (exists i, 0 <= i < 16 /\ Z.testbit mask i = true /\ chan_freq w i = 0) -> refused) /\
  (cntl = 6 -> fopts w' = fopts w ++ [3; 7] /\ forall i, 0 <= i < 16 -> chan_on w' i = negb (chan_freq w i =? 0)) /\
  (cntl <> 0 -> cntl <> 6 -> refused).
Definition C18_setting (E : env) (w : world) (m : Z) (v : val) (es : list ev) (w' : world) (p m0 m1 r : Z) : Prop :=
  env_ok E /\ reachable E w /\ op_wf (OIrq m) /\ step E w (OIrq m) = Some (v, es, w') /\
  accepted_fopts E w m es [3; p; m0; m1; r] /\ p mod 16 < 8 /\ p / 16 < 6 /\ len (fopts w) <= 13.
Definition fopts_is (E : env) (w : world) (l : list Z) : bool := list_eqb (fr_fopts (rx_data (received E w))) l.
Lemma accepted_intro E w m es l : recvb w m = true -> joining w = false -> cb_is ERR_NO es = true -> fopts_is E w l = true ->
  accepted_fopts E w m es l.
Proof.
  intros A B C D. split; [apply recvb_ok; exact A|]. split.
  - split; [exact B|]. apply cb_is_ok. exact C.
  - apply list_eqb_eq. exact D.
Qed.

(** ChMaskCntl 6 is refused *)
Theorem C18_refuted : ~ (forall E w m v es w' p m0 m1 r, C18_setting E w m v es w' p m0 m1 r -> r / 16 mod 8 = 6 ->
  C18_claim w w' (m0 + 256 * m1) (r / 16 mod 8)).
Proof.
  intro C. set (E := demo [] [(dl 8 false 0 [3; 69; 0; 0; 97] None, 9)]).
  destruct (case_intro E (abp 0 7 ++ after_uplink) (OIrq 2)
    (fun w v es w' => recvb w 2 && negb (joining w) && cb_is ERR_NO es && fopts_is E w [3; 69; 0; 0; 97] && list_eqb (fopts w) [] && list_eqb (fopts w') [3; 6]))
    as (v & es & w' & A & B & Hw & D & F); [apply demo_ok|vm_compute; reflexivity|].
  remember (after E _) as w0 eqn:Ew. clear Ew. ands F.
  repeat match goal with H : list_eqb _ _ = true |- _ => apply list_eqb_eq in H end.
  repeat match goal with H : negb _ = true |- _ => apply negb_true_iff in H end.
  destruct (C E w0 2 v es w' 69 0 0 97) as (_ & _ & _ & C4 & _).
  { repeat (split; [assumption|]). split; [apply accepted_intro; assumption|]. split; [reflexivity|]. split; [reflexivity|].
    match goal with H : fopts w0 = [] |- _ => rewrite H end. discriminate. }
  { reflexivity. }
  destruct (C4 eq_refl) as (C5 & _).
  match goal with H : fopts w0 = [] |- _ => rewrite H in C5 end. cbn [app] in C5. congruence.
Qed.
Print Assumptions C18_refuted.
(** the reserved value 1 is treated as 0 *)
Theorem C18_reserved_refuted : ~ (forall E w m v es w' p m0 m1 r, C18_setting E w m v es w' p m0 m1 r -> r / 16 mod 8 <> 0 -> r / 16 mod 8 <> 6 ->
  C18_claim w w' (m0 + 256 * m1) (r / 16 mod 8)).
Proof.
  intro C. set (E := demo [] [(dl 8 false 0 [3; 69; 6; 0; 17] None, 9)]).
  destruct (case_intro E (abp 0 7 ++ after_uplink) (OIrq 2)
    (fun w v es w' => recvb w 2 && negb (joining w) && cb_is ERR_NO es && fopts_is E w [3; 69; 6; 0; 17] && list_eqb (fopts w) [] && list_eqb (fopts w') [3; 7]))
    as (v & es & w' & A & B & Hw & D & F); [apply demo_ok|vm_compute; reflexivity|].
  remember (after E _) as w0 eqn:Ew. clear Ew. ands F.
  repeat match goal with H : list_eqb _ _ = true |- _ => apply list_eqb_eq in H end.
  repeat match goal with H : negb _ = true |- _ => apply negb_true_iff in H end.
  destruct (C E w0 2 v es w' 69 6 0 17) as (_ & _ & _ & _ & C4).
  { repeat (split; [assumption|]). split; [apply accepted_intro; assumption|]. split; [reflexivity|]. split; [reflexivity|].
    match goal with H : fopts w0 = [] |- _ => rewrite H end. discriminate. }
  { discriminate. } { discriminate. }
  destruct C4 as (C5 & _); [discriminate|discriminate|].
  match goal with H : fopts w0 = [] |- _ => rewrite H in C5 end. cbn [app] in C5. congruence.
Qed.
Print Assumptions C18_reserved_refuted.
(** an all-zero mask is accepted and leaves no channel to transmit on *)
Theorem C18_empty_refuted : ~ (forall E w m v es w' p m0 m1 r, C18_setting E w m v es w' p m0 m1 r -> r / 16 mod 8 = 0 ->
  C18_claim w w' (m0 + 256 * m1) (r / 16 mod 8)).
Proof.
  intro C. set (E := demo [] [(dl 8 false 0 [3; 69; 0; 0; 1] None, 9)]).
  destruct (case_intro E (abp 0 7 ++ after_uplink) (OIrq 2)
    (fun w v es w' => recvb w 2 && negb (joining w) && cb_is ERR_NO es && fopts_is E w [3; 69; 0; 0; 1] && list_eqb (fopts w) [] && list_eqb (fopts w') [3; 7]))
    as (v & es & w' & A & B & Hw & D & F); [apply demo_ok|vm_compute; reflexivity|].
  remember (after E _) as w0 eqn:Ew. clear Ew. ands F.
  repeat match goal with H : list_eqb _ _ = true |- _ => apply list_eqb_eq in H end.
  repeat match goal with H : negb _ = true |- _ => apply negb_true_iff in H end.
  destruct (C E w0 2 v es w' 69 0 0 1) as (C4 & _).
  { repeat (split; [assumption|]). split; [apply accepted_intro; assumption|]. split; [reflexivity|]. split; [reflexivity|].
    match goal with H : fopts w0 = [] |- _ => rewrite H end. discriminate. }
  { reflexivity. }
  destruct C4 as (C5 & _); [reflexivity|reflexivity|].
  match goal with H : fopts w0 = [] |- _ => rewrite H in C5 end. cbn [app] in C5. congruence.
Qed.
Print Assumptions C18_empty_refuted.
(** after it no uplink can be sent any more *)
Example C18_empty_case : case_of (demo [] [(dl 8 false 0 [3; 69; 0; 0; 1] None, 9)]) (abp 0 7 ++ after_uplink ++ [OIrq 2]) (OSend 1 [7] false)
  (fun w v es w' => match v with VErr ERR_CHANNEL => is_nil (tx_frames es) | _ => false end).
Proof. show_case. Qed.

(** What does hold: ChMaskCntl 0 with a non-empty mask, and the refusal of 4, 5 and 7.
    Missing: 6 (refused), 1 to 3 (treated as 0), the empty mask (accepted). *)
Theorem C18_mask_partial : forall E w m v es w' p m0 m1 r,
  C18_setting E w m v es w' p m0 m1 r ->
  (r / 16 mod 8 = 0 /\ m0 + 256 * m1 <> 0) \/ r / 16 mod 8 = 4 \/ r / 16 mod 8 = 5 \/ r / 16 mod 8 = 7 ->
  C18_claim w w' (m0 + 256 * m1) (r / 16 mod 8).
Proof.
  intros E w m v es w' p m0 m1 r (HE & Hr & Hw & H & Ha & Hp & Hd & Hl) Hc.
  destruct (C17_link_adr E w m v es w' p m0 m1 r HE Hr Hw H Ha) as (po & dro & mo & P1 & P2 & P3 & P4 & P5 & _).
  assert (po = true) by (apply P1; exact Hp). assert (dro = true) by (apply P2; exact Hd). subst po dro.
  assert (Q : forall a b, queued (fopts w) [a; b] = fopts w ++ [a; b]).
  { intros a b. unfold queued. change (len [a; b]) with 2. destruct (Z.leb_spec (len (fopts w) + 2) 15); [reflexivity|lia]. }
  rewrite Q in P4. unfold C18_claim. cbv zeta. set (mask := m0 + 256 * m1) in *. set (cntl := r / 16 mod 8) in *.
  assert (Ref : mo = false -> fopts w' = fopts w ++ [3; 6] /\ same_radio w w' /\ same_chan w w').
  { intros ->. cbn [andb] in P5. auto. }
  assert (K : cntl = 0 \/ cntl <> 0) by lia.
  split; [intros; exfalso; lia|]. split; [intros Hz Hnz Hall; split|split; [|split]].
  - destruct mo; [exact P4|exfalso]. apply Bool.diff_false_true. apply P3. split; [lia|assumption].
  - destruct mo; cbn [andb] in P5.
    + intros i Hi. apply P5; assumption.
    + exfalso. apply Bool.diff_false_true. apply P3. split; [lia|assumption].
  - intros Hz (i & Hi & Hb & Hf). apply Ref. destruct mo; [|reflexivity]. exfalso. apply (proj2 (proj1 P3 eq_refl) i Hi Hb Hf).
  - intros; exfalso; lia.
  - intros N1 N2. apply Ref. destruct mo; [|reflexivity]. exfalso. pose proof (proj1 (proj1 P3 eq_refl)). lia.
Qed.
Print Assumptions C18_mask_partial.

(** ** C19 RXParamSetupReq is all-or-nothing *)
Theorem C19_rx_param : forall E w m v es w' s f0 f1 f2,
  env_ok E -> reachable E w -> op_wf (OIrq m) -> step E w (OIrq m) = Some (v, es, w') ->
  accepted_fopts E w m es [5; s; f0; f1; f2] ->
  let off := s / 16 mod 8 in let dr := s mod 16 in let freq := 100 * (f0 + 256 * f1 + 65536 * f2) in
  exists off_ok dr_ok freq_ok : bool,
    (off_ok = true <-> off < 6) /\ (dr_ok = true <-> dr < 6) /\ (freq_ok = true <-> 860000000 <= freq <= 870000000) /\
    fopts w' = queued (fopts w) [5; (if off_ok then 4 else 0) + (if dr_ok then 2 else 0) + (if freq_ok then 1 else 0)] /\
    (if off_ok && dr_ok && freq_ok
     then uw_rx1_offset (stk w') = off /\ uw_rx2_dr (stk w') = dr /\ uw_rx2_frequency (stk w') = freq
     else same_rx w w') /\
    same_radio w w' /\ same_chan w w' /\ same_delay w w'.
Proof.
  intros E w m v es w' s f0 f1 f2 HE Hr Hw H Ha off dr freq. pose proof (reach_Inv E w HE Hr) as HI.
  destruct (accepted_run E w m v es w' _ HE HI H Ha) as (X & _ & _).
  change (mac_parse [5; s; f0; f1; f2]) with [RXParamSetupReq off dr (100 * unle [f0; f1; f2])] in X.
  rewrite run_single in X. cbn [mac_exec fst snd] in X. apply (f_equal fst) in X. cbn [fst] in X.
  assert (Em : 100 * unle [f0; f1; f2] = freq) by (unfold freq; cbn [unle]; lia). rewrite Em in X.
  exists (off <? 6), (dr <? 6), (legal_freq freq). split; [lia|]. split; [lia|]. split; [unfold legal_freq; lia|].
  remember (off <? 6) as oo. remember (dr <? 6) as dro. remember (legal_freq freq) as fo. clear Heqoo Heqdro Heqfo.
  observe w w' X. unfold bits3, b2z. see.
  destruct oo, dro, fo; see; (split; [reflexivity|]); (split; [repeat split; reflexivity|]); (split; [repeat split; reflexivity|]);
    (split; [same_table Ht Ht0|reflexivity]).
Qed.
Print Assumptions C19_rx_param.
(** offset 2, DR3, 869.9 MHz *)
Example C19_applied_case : case_of (demo [] [(dl 8 false 0 ([5; 35] ++ le 3 8699000) None, 9)]) (abp 0 7 ++ after_uplink) (OIrq 2)
  (fun w v es w' => recvb w 2 && cb_is ERR_NO es && list_eqb (fopts w') [5; 7] && (uw_rx1_offset (stk w') =? 2) &&
     (uw_rx2_dr (stk w') =? 3) && (uw_rx2_frequency (stk w') =? 869900000)).
Proof. show_case. Qed.
(** 900 MHz: only the channel bit is cleared *)
Example C19_refused_case : case_of (demo [] [(dl 8 false 0 ([5; 35] ++ le 3 9000000) None, 9)]) (abp 0 7 ++ after_uplink) (OIrq 2)
  (fun w v es w' => recvb w 2 && cb_is ERR_NO es && list_eqb (fopts w') [5; 6] && (uw_rx1_offset (stk w') =? uw_rx1_offset (stk w)) &&
     (uw_rx2_frequency (stk w') =? uw_rx2_frequency (stk w))).
Proof. show_case. Qed.

(** ** C20 NewChannelReq *)
Theorem C20_new_channel : forall E w m v es w' i f0 f1 f2 drr,
  env_ok E -> reachable E w -> op_wf (OIrq m) -> step E w (OIrq m) = Some (v, es, w') ->
  accepted_fopts E w m es [7; i; f0; f1; f2; drr] ->
  let freq := 100 * (f0 + 256 * f1 + 65536 * f2) in
  exists freq_ok dr_ok : bool,
    (freq_ok = true <-> 860000000 <= freq <= 870000000) /\ (dr_ok = true <-> drr = 80) /\
    fopts w' = queued (fopts w) [7; if freq_ok && dr_ok && (16 <=? i) then 0 else (if dr_ok then 2 else 0) + (if freq_ok then 1 else 0)] /\
    (if freq_ok && dr_ok && (i <? 16)
     then forall j, 0 <= j < 16 -> chan_freq w' j = (if j =? i then freq else chan_freq w j) /\
                                   chan_on w' j = (if j =? i then true else chan_on w j)
     else same_chan w w') /\
    same_radio w w' /\ same_rx w w' /\ same_delay w w'.
Proof.
  intros E w m v es w' i f0 f1 f2 drr HE Hr Hw H Ha freq. pose proof (reach_Inv E w HE Hr) as HI.
  destruct (accepted_run E w m v es w' _ HE HI H Ha) as (X & _ & _).
  assert (Hi : 0 <= i < 256).
  { destruct Ha as (_ & _ & Hf). pose proof (ok_pkt_byte E HE (rx_hist w)) as B. fold (received E w) in B.
    assert (B' : bytes_ok (fr_fopts (rx_data (received E w)))).
    { unfold fr_fopts, slice. unfold bytes_ok in *. rewrite Forall_forall in *. intros x Hx. apply B.
      rewrite <- (firstn_skipn 8 (rx_data (received E w))). apply in_or_app. right.
      rewrite <- (firstn_skipn (fr_fopts_len (rx_data (received E w)))). apply in_or_app. left. exact Hx. }
    rewrite Hf in B'. apply Forall_inv_tail, Forall_inv in B'. unfold is_byte in B'. lia. }
  change (mac_parse [7; i; f0; f1; f2; drr]) with [NewChannelReq i (100 * unle [f0; f1; f2]) drr] in X.
  rewrite run_single in X. cbn [mac_exec fst snd] in X. apply (f_equal fst) in X. cbn [fst] in X.
  assert (Em : 100 * unle [f0; f1; f2] = freq) by (unfold freq; cbn [unle]; lia). rewrite Em in X.
  exists (legal_freq freq), (drr =? 80). split; [unfold legal_freq; lia|]. split; [lia|].
  remember (legal_freq freq) as fo. remember (drr =? 80) as dro. clear Heqfo Heqdro.
  observe w w' X. unfold bits3, b2z. see.
  destruct (Z.ltb_spec i 16), (Z.leb_spec 16 i); try lia; destruct dro, fo; see; (split; [reflexivity|]);
    (split; [|repeat split; reflexivity]); try (same_table Ht Ht0).
  intros j Hj. specialize (Ht j Hj). rewrite nth_upd in Ht by (change (v_table (dev_w w)) with (table w); rewrite table_length; lia).
  destruct (Z.eqb_spec j i) as [->|N].
  - rewrite Nat.eqb_refl in Ht. injection Ht as -> ->. auto.
  - destruct (Nat.eqb_spec (Z.to_nat j) (Z.to_nat i)) as [Q|Q].
    + exfalso. apply N. lia.
    + rewrite Ht0 in Ht by exact Hj. injection Ht as -> ->. auto.
Qed.
Print Assumptions C20_new_channel.
Example C20_created_case : case_of (demo [] [(dl 8 false 0 ([7; 9] ++ le 3 8671000 ++ [80]) None, 9)]) (abp 0 7 ++ after_uplink) (OIrq 2)
  (fun w v es w' => recvb w 2 && cb_is ERR_NO es && list_eqb (fopts w') [7; 3] && (chan_freq w' 9 =? 867100000) && chan_on w' 9).
Proof. show_case. Qed.
Example C20_bad_index_case : case_of (demo [] [(dl 8 false 0 ([7; 16] ++ le 3 8671000 ++ [80]) None, 9)]) (abp 0 7 ++ after_uplink) (OIrq 2)
  (fun w v es w' => recvb w 2 && cb_is ERR_NO es && list_eqb (fopts w') [7; 0] && list_eqb (on_list w') (on_list w)).
Proof. show_case. Qed.
Example C20_bad_range_case : case_of (demo [] [(dl 8 false 0 ([7; 0] ++ le 3 8671000 ++ [48]) None, 9)]) (abp 0 7 ++ after_uplink) (OIrq 2)
  (fun w v es w' => recvb w 2 && cb_is ERR_NO es && list_eqb (fopts w') [7; 1] && (chan_freq w' 0 =? chan_freq w 0)).
Proof. show_case. Qed.

(** ** C22 DevStatusAns *)
Theorem C22_dev_status : forall E w m v es w',
  env_ok E -> reachable E w -> op_wf (OIrq m) -> step E w (OIrq m) = Some (v, es, w') ->
  accepted_fopts E w m es [6] ->
  let snr := rx_snr (received E w) in
  exists battery margin,
    fopts w' = queued (fopts w) [6; battery; margin] /\
    0 <= margin < 64 /\ (-32 <= snr < 32 -> snr = if margin <? 32 then margin else margin - 64) /\ margin = snr mod 64 /\
    (forall cb, mac_cbs (s_mac (w_st w)) = Some cb -> has_get_battery_level cb = true -> mac_calls es = [MBattery battery]) /\
    ((mac_cbs (s_mac (w_st w)) = None \/ exists cb, mac_cbs (s_mac (w_st w)) = Some cb /\ has_get_battery_level cb = false) ->
       battery = 255 /\ mac_calls es = []) /\
    same_radio w w' /\ same_chan w w' /\ same_rx w w' /\ same_delay w w'.
Proof.
  intros E w m v es w' HE Hr Hw H Ha snr. pose proof (reach_Inv E w HE Hr) as HI.
  destruct (accepted_run E w m v es w' _ HE HI H Ha) as (X & _ & _).
  change (mac_parse [6]) with [DevStatusReq] in X. rewrite run_single in X. cbn [mac_exec] in X.
  change (x_cbs (rx_ctx E w)) with (mac_cbs (s_mac (w_st w))) in X. change (x_snr (rx_ctx E w)) with snr in X.
  assert (Hm : forall x, 0 <= x mod 64 < 64 /\ (-32 <= x < 32 -> x = if x mod 64 <? 32 then x mod 64 else x mod 64 - 64) /\ x mod 64 = x mod 64).
  { intro x. split; [apply Z.mod_pos_bound; lia|]. split; [|reflexivity]. intro R. pose proof (Z_div_mod_eq_full x 64). pose proof (Z.mod_pos_bound x 64).
    destruct (Z.ltb_spec (x mod 64) 32); lia. }
  assert (Main : forall battery, dev_w w' = fst (answer [6; battery; snr mod 64] (dev_w w)) ->
    fopts w' = queued (fopts w) [6; battery; snr mod 64] /\ same_radio w w' /\ same_chan w w' /\ same_rx w w' /\ same_delay w w').
  { intros b Y. observe w w' Y. see. split; [reflexivity|]. split; [repeat split; reflexivity|]. split; [same_table Ht Ht0|].
    repeat split; reflexivity. }
  destruct (Hm snr) as (M1 & M2 & M3).
  destruct (mac_cbs (s_mac (w_st w))) as [cb|] eqn:Ec; [destruct (has_get_battery_level cb) eqn:Eb|]; cbn [fst snd] in X;
    injection X as X1 X2; apply Main in X1; destruct X1 as (Y1 & Y2); eexists; exists (snr mod 64);
    (split; [exact Y1|]); (split; [exact M1|]); (split; [exact M2|]); (split; [reflexivity|]); (split; [|split; [|exact Y2]]).
  - intros cb' Q _. injection Q as <-. exact X2.
  - intros [Q|(cb' & Q & Q')]; [discriminate|]. injection Q as <-. congruence.
  - intros cb' Q Q'. injection Q as <-. congruence.
  - auto.
  - discriminate.
  - auto.
Qed.
Print Assumptions C22_dev_status.
Example C22_battery_case : case_of (demo [] [(dl 8 false 0 [6] None, -5)])
  (abp 0 7 ++ [OSetHandlers (Some (Mk_mac_callbacks true true true true))] ++ after_uplink) (OIrq 2)
  (fun w v es w' => recvb w 2 && cb_is ERR_NO es && list_eqb (fopts w') [6; 200; 59]).
Proof. show_case. Qed.
Example C22_no_handler_case : case_of (demo [] [(dl 8 false 0 [6] None, 9)]) (abp 0 7 ++ after_uplink) (OIrq 2)
  (fun w v es w' => recvb w 2 && cb_is ERR_NO es && list_eqb (fopts w') [6; 255; 9]).
Proof. show_case. Qed.
