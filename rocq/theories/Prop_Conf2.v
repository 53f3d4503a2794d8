(** Prop_Conf2.v -- what LoRaWAN 1.0.2 asks of DlChannelReq, NewChannelReq, the
    acknowledgement of confirmed uplinks and DutyCycleReq: C84 - C87. *)
From Verif Require Import SpecConf LCmd LClock Demo Prop_Down Prop_Mac.

(** ** C84 DlChannelReq *)
Definition C84_setting (E : env) (w : world) (m : Z) (v : val) (es : list ev) (w' : world) (i f0 f1 f2 : Z) : Prop :=
  env_ok E /\ reachable E w /\ op_wf (OIrq m) /\ step E w (OIrq m) = Some (v, es, w') /\
  accepted_fopts E w m es [10; i; f0; f1; f2].
(** LoRaWAN 1.0.2, 5.8: a defined channel and a frequency the device can use are both
    acknowledged (the answer is part of the claim; the shift of the first window would
    follow from it) *)
Theorem C84_answer_refuted : ~ (forall E w m v es w' i f0 f1 f2,
  C84_setting E w m v es w' i f0 f1 f2 -> 0 <= i < 16 -> chan_freq w i <> 0 ->
  860000000 <= 100 * (f0 + 256 * f1 + 65536 * f2) <= 870000000 -> len (fopts w) <= 13 ->
  fopts w' = fopts w ++ [10; 3]).
Proof.
  intro C. set (fo := [10; 1] ++ le 3 8690000). set (E := demo [] [(dl 8 false 0 fo None, 9)]).
  destruct (case_intro E (abp 0 7 ++ after_uplink) (OIrq 2)
    (fun w v es w' => recvb w 2 && negb (joining w) && cb_is ERR_NO es && fopts_is E w [10; 1; 80; 153; 132] && list_eqb (fopts w) [] && list_eqb (fopts w') [] && (chan_freq w 1 =? 868300000)))
    as (v & es & w' & A & B & Hw & D & F); [apply demo_ok|vm_compute; reflexivity|].
  remember (after E _) as w0 eqn:Ew. clear Ew. ands F.
  repeat match goal with H : list_eqb _ _ = true |- _ => apply list_eqb_eq in H end.
  repeat match goal with H : negb _ = true |- _ => apply negb_true_iff in H end.
  assert (X : fopts w' = fopts w0 ++ [10; 3]).
  { apply (C E w0 2 v es w' 1 80 153 132); try lia.
    - repeat (split; [assumption|]). apply accepted_intro; assumption.
    - match goal with H : fopts w0 = [] |- _ => rewrite H end. discriminate. }
  match goal with H : fopts w0 = [] |- _ => rewrite H in X end.
  match goal with H : fopts w' = [] |- _ => rewrite H in X end. discriminate.
Qed.
Print Assumptions C84_answer_refuted.
(** What holds: the command is skipped and nothing changes. *)
Theorem C84_skipped_partial : forall E w m v es w' i f0 f1 f2,
  C84_setting E w m v es w' i f0 f1 f2 ->
  fopts w' = fopts w /\ mac_calls es = [] /\ same_radio w w' /\ same_chan w w' /\ same_rx w w' /\ same_delay w w'.
Proof.
  intros E w m v es w' i f0 f1 f2 (HE & Hr & Hw & H & Ha). pose proof (reach_Inv E w HE Hr) as HI.
  destruct (accepted_run E w m v es w' _ HE HI H Ha) as (X & _ & _).
  change (mac_parse [10; i; f0; f1; f2]) with [DlChannelReq] in X. rewrite run_single in X. cbn [mac_exec fst snd] in X.
  pose proof (f_equal fst X) as X1. pose proof (f_equal snd X) as X2. cbn [fst snd] in X1, X2. clear X.
  observe w w' X1. see. split; [reflexivity|]. split; [exact X2|]. split; [repeat split; reflexivity|].
  split; [same_table Ht Ht0|]. repeat split; reflexivity.
Qed.
Print Assumptions C84_skipped_partial.
(** and the commands after it are read *)
Example C84_case : case_of (demo [] [(dl 8 false 0 ([10; 1] ++ le 3 8690000 ++ [6]) None, 9)]) (abp 0 7 ++ after_uplink) (OIrq 2)
  (fun w v es w' => recvb w 2 && cb_is ERR_NO es && list_eqb (fopts w') [6; 255; 9] && (chan_freq w' 1 =? 868300000)).
Proof. show_case. Qed.

(** ** C85 NewChannelReq *)
Definition C85_setting (E : env) (w : world) (m : Z) (v : val) (es : list ev) (w' : world) (i f0 f1 f2 drr : Z) : Prop :=
  env_ok E /\ reachable E w /\ op_wf (OIrq m) /\ step E w (OIrq m) = Some (v, es, w') /\
  accepted_fopts E w m es [7; i; f0; f1; f2; drr] /\ len (fopts w) <= 13.
Ltac setting85 fo P :=
  let C := fresh "C" in intro C; set (E := demo [] [(dl 8 false 0 fo None, 9)]);
  destruct (case_intro E (abp 0 7 ++ after_uplink) (OIrq 2)
    (fun w v es w' => recvb w 2 && negb (joining w) && cb_is ERR_NO es && fopts_is E w fo && list_eqb (fopts w) [] && P w w'))
    as (v & es & w' & A & B & Hw & D & F); [apply demo_ok|vm_compute; reflexivity|];
  remember (after E _) as w0 eqn:Ew; clear Ew; ands F; cbv beta in *;
  repeat match goal with H : (_ && _) = true |- _ => apply andb_prop in H; destruct H end;
  repeat match goal with H : list_eqb _ _ = true |- _ => apply list_eqb_eq in H end;
  repeat match goal with H : negb _ = true |- _ => apply negb_true_iff in H end.
Ltac setting85_ok := repeat (split; [assumption|]); split; [apply accepted_intro; assumption|];
  match goal with H : fopts ?w = [] |- len (fopts ?w) <= _ => rewrite H end; discriminate.
(** a default channel is moved *)
Theorem C85_default_refuted : ~ (forall E w m v es w' i f0 f1 f2 drr,
  C85_setting E w m v es w' i f0 f1 f2 drr -> i < default_channels w -> same_chan w w').
Proof.
  setting85 [7; 0; 24; 79; 132; 80] (fun w w' : world => match uw_region (stk w) with Some EU868 => true | _ => false end &&
    (chan_freq w 0 =? 868100000) && (chan_freq w' 0 =? 867100000)).
  destruct (C E w0 2 v es w' 0 24 79 132 80) with (i := 0) as [X _]; [setting85_ok| |lia|lia].
  unfold default_channels. destruct (uw_region (stk w0)) as [[|]|]; try discriminate. reflexivity.
Qed.
Print Assumptions C85_default_refuted.
(** frequency 0 does not remove the channel *)
Theorem C85_remove_refuted : ~ (forall E w m v es w' i drr,
  C85_setting E w m v es w' i 0 0 0 drr -> default_channels w <= i < 16 -> drr = dr_range 0 5 ->
  fopts w' = fopts w ++ [7; 3] /\ chan_on w' i = false).
Proof.
  intro C. set (fo := [7; 3; 0; 0; 0; 80]). set (E := demo [] [(dl 8 false 0 fo None, 9)]).
  destruct (case_intro E (abp 0 7 ++ [OSetChannel 3 867100000] ++ after_uplink) (OIrq 2)
    (fun w v es w' => recvb w 2 && negb (joining w) && cb_is ERR_NO es && fopts_is E w fo && list_eqb (fopts w) [] &&
       match uw_region (stk w) with Some EU868 => true | _ => false end && chan_on w 3 && chan_on w' 3))
    as (v & es & w' & A & B & Hw & D & F); [apply demo_ok|vm_compute; reflexivity|].
  remember (after E _) as w0 eqn:Ew. clear Ew. ands F.
  repeat match goal with H : list_eqb _ _ = true |- _ => apply list_eqb_eq in H end.
  repeat match goal with H : negb _ = true |- _ => apply negb_true_iff in H end.
  destruct (C E w0 2 v es w' 3 80) as [_ X]; [setting85_ok| |reflexivity|congruence].
  unfold default_channels. destruct (uw_region (stk w0)) as [[|]|]; try discriminate. lia.
Qed.
Print Assumptions C85_remove_refuted.
(** the range DR0 to DR3 is refused *)
Theorem C85_range_refuted : ~ (forall E w m v es w' i f0 f1 f2 lo hi,
  C85_setting E w m v es w' i f0 f1 f2 (dr_range lo hi) -> default_channels w <= i < 16 -> 0 <= lo <= hi -> hi <= 5 ->
  860000000 <= 100 * (f0 + 256 * f1 + 65536 * f2) <= 870000000 -> fopts w' = fopts w ++ [7; 3]).
Proof.
  setting85 [7; 3; 24; 79; 132; 48] (fun w w' : world => match uw_region (stk w) with Some EU868 => true | _ => false end && list_eqb (fopts w') [7; 1]).
  repeat match goal with H : list_eqb _ _ = true |- _ => apply list_eqb_eq in H end.
  assert (X : fopts w' = fopts w0 ++ [7; 3]).
  { apply (C E w0 2 v es w' 3 24 79 132 0 3); try lia; [setting85_ok|].
    unfold default_channels. destruct (uw_region (stk w0)) as [[|]|]; try discriminate. lia. }
  match goal with H : fopts w0 = [] |- _ => rewrite H in X end. cbn [app] in X. congruence.
Qed.
Print Assumptions C85_range_refuted.
(** What holds: a channel behind the default ones, with the full range of data rates and a
    legal frequency. *)
Theorem C85_new_partial : forall E w m v es w' i f0 f1 f2,
  C85_setting E w m v es w' i f0 f1 f2 (dr_range 0 5) -> default_channels w <= i < 16 ->
  860000000 <= 100 * (f0 + 256 * f1 + 65536 * f2) <= 870000000 ->
  fopts w' = fopts w ++ [7; 3] /\
  forall j, 0 <= j < 16 -> chan_freq w' j = (if j =? i then 100 * (f0 + 256 * f1 + 65536 * f2) else chan_freq w j) /\
                           chan_on w' j = (if j =? i then true else chan_on w j).
Proof.
  intros E w m v es w' i f0 f1 f2 (HE & Hr & Hw & H & Ha & L) Hi Hf.
  destruct (C20_new_channel E w m v es w' i f0 f1 f2 (dr_range 0 5) HE Hr Hw H Ha) as (fo & dro & P1 & P2 & P3 & P4 & _).
  assert (fo = true) by (apply P1; exact Hf). assert (dro = true) by (apply P2; reflexivity). subst fo dro.
  cbn [andb] in P3, P4. destruct (Z.leb_spec 16 i), (Z.ltb_spec i 16); try lia.
  split; [|exact P4]. rewrite P3. unfold queued. change (len [7; 2 + 1]) with 2. destruct (Z.leb_spec (len (fopts w) + 2) 15); [reflexivity|lia].
Qed.
Print Assumptions C85_new_partial.
Example C85_case : case_of (demo [] [(dl 8 false 0 ([7; 9] ++ le 3 8671000 ++ [80]) None, 9)]) (abp 0 7 ++ after_uplink) (OIrq 2)
  (fun w v es w' => recvb w 2 && cb_is ERR_NO es && (default_channels w =? 3) && list_eqb (fopts w') [7; 3] && (chan_freq w' 9 =? 867100000)).
Proof. show_case. Qed.

(** ** C86 The application learns whether a confirmed uplink was acknowledged *)
Definition acked (f : list Z) : bool := Z.testbit (at_ f 5) 5.
Definition C86_setting (E : env) (w : world) (m : Z) (v : val) (es : list ev) (w' : world) : Prop :=
  env_ok E /\ reachable E w /\ op_wf (OIrq m) /\ step E w (OIrq m) = Some (v, es, w') /\ receives w m /\ delivers E w m es.
(** There is no way to tell from what the callback is given and all that the stack
    remembers but the raw bytes of its frame buffer, which is overwritten by the next
    frame and which no call reveals. *)
Definition remembered (w : world) : st := on_stk (set_uw_frame []) (w_st w).
Definition C86_ops : list op := abp 0 7 ++ [OSend 1 [7] true; OIrq 4].
Definition C86_env (hi : Z) : env := demo [] [(dl 8 false hi [] (Some (5, [1; 2; 3])), 9)].
Definition C86_state (hi : Z) : st :=
  match step (C86_env hi) (after (C86_env hi) C86_ops) (OIrq 2) with Some (_, _, w') => remembered w' | None => power_on end.
Theorem C86_ack_refuted : ~ (exists tell : list (err * Z * dlview) -> st -> bool, forall E w m v es w',
  C86_setting E w m v es w' -> tell (callbacks es) (remembered w') = acked (rx_data (received E w))).
Proof.
  intros (tell & T).
  assert (G : forall hi, In hi [0; 2] -> tell [(ERR_NO, 3, Mk_dlview (Some [1; 2; 3]) 3 5 (-80) 9)] (C86_state hi) = Z.testbit hi 1).
  { intros hi Hh. set (E := C86_env hi).
    destruct (case_intro E C86_ops (OIrq 2)
      (fun w v es w' => recvb w 2 && negb (joining w) && cb_is ERR_NO es && Bool.eqb (acked (rx_data (received E w))) (Z.testbit hi 1) &&
         match callbacks es with [(ERR_NO, 3, Mk_dlview (Some [1; 2; 3]) 3 5 (-80) 9)] => true | _ => false end))
      as (v & es & w' & A & B & Hw & D & F).
    { apply demo_ok. } { unfold E. destruct Hh as [<-|[<-|[]]]; vm_compute; reflexivity. }
    assert (S : C86_state hi = remembered w') by (unfold C86_state; fold E; rewrite D; reflexivity).
    remember (after E _) as w0 eqn:Ew. clear Ew.
    apply andb_prop in F. destruct F as [F F5]. ands F. apply Bool.eqb_prop in H. apply negb_true_iff in H1.
    assert (X : tell (callbacks es) (remembered w') = acked (rx_data (received E w0))).
    { apply (T E w0 2 v es w'). repeat (split; [assumption|]). split; [apply recvb_ok; assumption|].
      split; [assumption|]. apply cb_is_ok. assumption. }
    rewrite <- H, <- X, S. f_equal. clear - F5.
    repeat match type of F5 with match ?x with _ => _ end = true => destruct x; try discriminate F5 end. reflexivity. }
  assert (S : C86_state 0 = C86_state 2) by (vm_compute; reflexivity).
  pose proof (G 0 (or_introl eq_refl)) as G0. pose proof (G 2 (or_intror (or_introl eq_refl))) as G1. rewrite <- S, G0 in G1. discriminate.
Qed.
Print Assumptions C86_ack_refuted.

(** ** C87 DutyCycleReq limits the share of time spent sending *)
Definition C87_setting (E : env) (w : world) (m : Z) (v : val) (es : list ev) (w1 : world) (n : Z) : Prop :=
  env_ok E /\ reachable E w /\ op_wf (OIrq m) /\ step E w (OIrq m) = Some (v, es, w1) /\ accepted_fopts E w m es [4; n].
(** What holds: the request is acknowledged and nothing else changes. Missing: the limit. *)
Theorem C87_answer_partial : forall E w m v es w1 n,
  C87_setting E w m v es w1 n ->
  fopts w1 = queued (fopts w) [4] /\ mac_calls es = [] /\ same_radio w w1 /\ same_chan w w1 /\ same_rx w w1 /\ same_delay w w1.
Proof.
  intros E w m v es w' n (HE & Hr & Hw & H & Ha). pose proof (reach_Inv E w HE Hr) as HI.
  destruct (accepted_run E w m v es w' _ HE HI H Ha) as (X & _ & _).
  change (mac_parse [4; n]) with [DutyCycleReq (n mod 16)] in X. rewrite run_single in X. cbn [mac_exec fst snd] in X.
  pose proof (f_equal fst X) as X1. pose proof (f_equal snd X) as X2. cbn [fst snd] in X1, X2. clear X.
  observe w w' X1. see. split; [reflexivity|]. split; [exact X2|]. split; [repeat split; reflexivity|].
  split; [same_table Ht Ht0|]. repeat split; reflexivity.
Qed.
Print Assumptions C87_answer_partial.
Lemma not_nil {A} (l : list A) : is_nil l = false -> l <> [].
Proof. intros H ->. discriminate. Qed.
Definition timer_eqb (a b : timer_id) : bool := match a, b with TIMER_RX1, TIMER_RX1 | TIMER_RX2, TIMER_RX2 => true | _, _ => false end.
Definition late_enough (t : Z) (es : list ev) (x : Z * entry) : bool :=
  (t <=? fst x) && match fst (fst (snd x)) with
                   | OTimer id => forallb (fun e => match e with TStart id' ms => negb (timer_eqb id id') || (t + ms <=? fst x) | _ => true end) es
                   | _ => true
                   end.
Fixpoint on_timeb (l : list (Z * entry)) : bool :=
  match l with [] => true | (t, (_, _, es)) :: l' => forallb (late_enough t es) l' && on_timeb l' end.
Lemma on_timeb_ok l : on_timeb l = true -> on_time l.
Proof.
  induction l as [|[t [[o v] es]] l IH]; intro H; [exact I|]. cbn [on_timeb] in H. apply andb_prop in H. destruct H as [H1 H2].
  split; [|apply IH; exact H2]. rewrite Forall_forall. rewrite forallb_forall in H1. intros x Hx. specialize (H1 x Hx). destruct x as [t' [[o' v'] es']]. cbn [fst snd].
  unfold late_enough in H1. cbn [fst snd] in H1. apply andb_prop in H1. destruct H1 as [H0 H1]. split; [apply Z.leb_le; exact H0|]. intros id ms Hin ->.
  rewrite forallb_forall in H1. specialize (H1 _ Hin). cbv beta iota in H1. apply Z.leb_le. destruct id; exact H1.
Qed.
(** [ts]: time stamps of the run [tr]. [x]: a call that sends a frame at [a]; [y]: the radio
    reports the end of the frame at [b]; [z]: a later call that sends a frame, at [c]. *)
Theorem C87_duty_refuted : ~ (forall E w m v es w1 n ops tr w2 ts a b c x y z l,
  C87_setting E w m v es w1 n -> 0 <= n < 16 -> Forall op_wf ops -> exec E w1 ops tr w2 ->
  length ts = length tr -> combine ts tr = (a, x) :: (b, y) :: l ++ [(c, z)] -> on_time (combine ts tr) ->
  data_frames [x] <> [] -> fst (fst y) = OIrq 4 -> data_frames [z] <> [] -> duty_ok n a b c).
Proof.
  intro C. set (E := demo [] [(dl 8 false 0 [4; 15] None, 9)]).
  set (ops := [OSend 1 [7] false; OIrq 4; OTimer TIMER_RX1; OIrq 1; OTimer TIMER_RX2; OIrq 1; OSend 1 [8] false]).
  set (ts := [0; 1000; 2000; 2100; 3000; 3100; 4000]).
  destruct (run_intro E (abp 0 7 ++ after_uplink) (OIrq 2 :: ops)
    (fun w tr w' => recvb w 2 && negb (joining w) && fopts_is E w [4; 15] &&
       match tr with
       | (_, _, es) :: tr' => cb_is ERR_NO es && on_timeb (combine ts tr') &&
           match tr' with
           | [x; y; _; _; _; _; z] => negb (is_nil (data_frames [x])) && match fst (fst y) with OIrq 4 => true | _ => false end && negb (is_nil (data_frames [z]))
           | _ => false
           end
       | _ => false
       end))
    as (tr & w' & A & B & Hw & D & F); [apply demo_ok|vm_compute; reflexivity|].
  remember (after E _) as w0 eqn:Ew. clear Ew.
  inversion D as [|wa o opsa v es w1 tra w2 S1 S2]; subst. rename tra into tr.
  apply Forall_cons_iff in Hw. destruct Hw as [Hw1 Hw].
  apply andb_prop in F. destruct F as [F1 F2]. ands F1. apply andb_prop in F2. destruct F2 as [F2 F3]. apply andb_prop in F2. destruct F2 as [F2 F4].
  repeat match goal with H : negb _ = true |- _ => apply negb_true_iff in H end.
  destruct tr as [|x [|y [|m1 [|m2 [|m3 [|m4 [|z [|]]]]]]]]; try discriminate. ands F3.
  repeat match goal with H : negb _ = true |- _ => apply negb_true_iff in H end.
  assert (X : duty_ok 15 0 1000 4000).
  { apply (C E w0 2 v es w1 15 ops [x; y; m1; m2; m3; m4; z] w' ts 0 1000 4000 x y z [(2000, m1); (2100, m2); (3000, m3); (3100, m4)]).
    - repeat (split; [assumption|]). apply accepted_intro; assumption.
    - lia.
    - exact Hw.
    - exact S2.
    - reflexivity.
    - reflexivity.
    - apply on_timeb_ok. exact F4.
    - apply not_nil. assumption.
    - destruct (fst (fst y)) eqn:Ey; try discriminate.
      repeat match goal with H : context [match ?k with _ => _ end] |- _ => is_var k; destruct k; try discriminate end. reflexivity.
    - apply not_nil. assumption. }
  unfold duty_ok in X. lia.
Qed.
Print Assumptions C87_duty_refuted.
Example C87_case : case_of (demo [] [(dl 8 false 0 [4; 15] None, 9)]) (abp 0 7 ++ after_uplink) (OIrq 2)
  (fun w v es w' => recvb w 2 && cb_is ERR_NO es && fopts_is (demo [] [(dl 8 false 0 [4; 15] None, 9)]) w [4; 15] && list_eqb (fopts w') [4]).
Proof. show_case. Qed.
