(** Prop_Assign.v -- C06 over whole histories: where a channel's frequency comes from, and
    who has enabled it *)
From Verif Require Import SpecAssign LCmd LUp4 Prop_Chan Prop_Join Prop_Down Prop_Mac Prop_App LClock Demo SpecAdr.

Definition fr_at (i : nat) (t : ctable) : Z := fst (nth i t (0, false)).
Definition on_at (i : nat) (t : ctable) : bool := snd (nth i t (0, false)).

(** ** one MAC command, and a sequence of them *)
Lemma answer_table a d : v_table (fst (answer a d)) = v_table d.
Proof. unfold answer. destruct (_ <=? _); reflexivity. Qed.
Lemma upd_ge {A} n (x : A) l : (length l <= n)%nat -> upd n x l = l.
Proof. revert n. induction l as [|y l IH]; intros [|n] L; cbn in *; try reflexivity; [lia|]. f_equal. apply IH. lia. Qed.
Lemma mask_apply_length t : forall mask, length (mask_apply mask t) = length t.
Proof. induction t as [|e t IH]; intro mask; [reflexivity|cbn; f_equal; apply IH]. Qed.
Definition index_ok (c : mac_cmd) : Prop := forall i f d, c = NewChannelReq i f d -> 0 <= i.
Definition gives (i : nat) (f : Z) (c : mac_cmd) : Prop := c = NewChannelReq (Z.of_nat i) f 80 /\ legal_freq f = true.
Definition masks_in (i : nat) (c : mac_cmd) : Prop := exists dr p mask cn nb, c = LinkADRReq dr p mask cn nb /\ Z.testbit mask (Z.of_nat i) = true.
Local Ltac keep := cbn [v_table fst]; split; [reflexivity|split; [let N := fresh in intro N; destruct (N eq_refl)|let A := fresh in let B := fresh in intros A B; rewrite A in B; discriminate B]].
Lemma exec_table x h c d i : index_ok c -> (i < length (v_table d))%nat ->
  let t' := v_table (fst (fst (mac_exec x h c d))) in length t' = length (v_table d) /\
  (fr_at i t' <> fr_at i (v_table d) -> gives i (fr_at i t') c) /\
  (on_at i t' = true -> on_at i (v_table d) = false -> (exists f, gives i f c) \/ masks_in i c).
Proof.
  intros Ix L t'. subst t'. destruct c; cbn [mac_exec fst]; rewrite ?answer_table; try (keep).
  - destruct (_ && _ && _); [|keep]. cbn [v_table]. split; [apply mask_apply_length|]. unfold fr_at, on_at. rewrite mask_apply_nth by exact L. cbn [fst snd]. split; [tauto|].
    intros B _. right. exists dr, power, mask, cntl, nb. auto.
  - destruct (_ && _ && _); (keep).
  - destruct (x_cbs x) as [c|]; [destruct (has_get_battery_level c)|]; cbn [fst]; rewrite ?answer_table; (keep).
  - destruct (legal_freq freq && (dr_range =? 80) && (index <? 16)) eqn:Q; [|keep]. apply andb_prop in Q as [Q Q3]. apply andb_prop in Q as [Q1 Q2]. cbn [v_table].
    apply Z.eqb_eq in Q2. subst dr_range. split; [apply upd_length|]. unfold fr_at, on_at.
    destruct (Nat.lt_ge_cases (Z.to_nat index) (length (v_table d))) as [Li|Li]; [|rewrite upd_ge by lia; split; [intro N; destruct (N eq_refl)|intros A B; rewrite A in B; discriminate B]].
    rewrite nth_upd by exact Li. destruct (Nat.eqb_spec i (Z.to_nat index)) as [e|e]; [|split; [intro N; destruct (N eq_refl)|intros A B; rewrite A in B; discriminate B]]. cbn [fst snd].
    pose proof (Ix _ _ _ eq_refl) as Hi. assert (G : gives i freq (NewChannelReq index freq 80)) by (split; [f_equal; lia|exact Q1]). split; [intros _; exact G|]. intros _ _. left. exists freq. exact G.
Qed.
Lemma run_table x cs : forall h d i, Forall index_ok cs -> (i < length (v_table d))%nat ->
  let t' := v_table (fst (mac_run x h cs d)) in length t' = length (v_table d) /\
  (fr_at i t' <> fr_at i (v_table d) -> exists c, In c cs /\ gives i (fr_at i t') c) /\
  (on_at i t' = true -> on_at i (v_table d) = false -> exists c, In c cs /\ ((exists f, gives i f c) \/ masks_in i c)).
Proof.
  induction cs as [|c cs IH]; intros h d i F L t'; subst t'; [split; [reflexivity|split; [tauto|cbn [mac_run fst]; congruence]]|]. inversion F as [|? ? Fc Fs]; subst.
  destruct (exec_table x h c d i Fc L) as (L1 & A1 & B1). cbn [mac_run]. destruct (mac_exec x h c d) as [[d1 go] e1]. cbn [fst] in L1, A1, B1. destruct go.
  2: { cbn [fst]. split; [exact L1|]. split; [intro N; exists c; split; [left; reflexivity|exact (A1 N)]|intros P N; exists c; split; [left; reflexivity|exact (B1 P N)]]. }
  destruct (IH (h ++ e1) d1 i Fs ltac:(rewrite L1; exact L)) as (L2 & A2 & B2). destruct (mac_run x (h ++ e1) cs d1) as [d2 e2]. cbn [fst] in *. split; [congruence|]. split.
  - intro N. destruct (Z.eq_dec (fr_at i (v_table d2)) (fr_at i (v_table d1))) as [e|e]; [|destruct (A2 e) as (c' & I & G); exists c'; split; [right; exact I|exact G]].
    exists c. split; [left; reflexivity|]. rewrite e in *. exact (A1 N).
  - intros P N. destruct (on_at i (v_table d1)) eqn:Q; [exists c; split; [left; reflexivity|exact (B1 eq_refl N)]|]. destruct (B2 P eq_refl) as (c' & I & G). exists c'. split; [right; exact I|exact G].
Qed.
Lemma parse_index n : forall l, (length l <= n)%nat -> bytes_ok l -> Forall index_ok (mac_parse l).
Proof.
  induction n as [|n IH]; intros [|cid l] L B; try (cbn in L; lia); try constructor. cbn [mac_parse]. inversion B as [|? ? _ B']; subst. cbn in L.
  assert (T : forall k, bytes_ok (skipn k l)) by (intro k; revert B'; clear; revert k; induction l as [|a l IH]; intros [|k] B; cbn; auto; [inversion B; auto]).
  assert (R : forall k c, index_ok c -> Forall index_ok (c :: mac_parse (skipn k l))) by (intros k c Ic; constructor; [exact Ic|apply IH; [rewrite skipn_length; lia|apply T]]).
  repeat match goal with |- context [if ?b then _ else _] => destruct b end; try (constructor; fail).
  all: try (apply (R 0%nat); intros i f d Q; discriminate Q).
  all: repeat match goal with |- context [match ?x with [] => _ | _ :: _ => _ end] => is_var x; destruct x as [|? x] end; try (constructor; fail).
  all: first [apply (R 1%nat); intros i f d Q; discriminate Q|apply (R 2%nat); intros i f d Q; discriminate Q|apply (R 4%nat); intros i f d Q; discriminate Q|apply (R 5%nat); intros i f d Q; discriminate Q|idtac].
  apply (R 5%nat). intros i f d Q. injection Q as <- _ _. inversion B'; subst. unfold is_byte in *. lia.
Qed.

(** ** one call or event *)
Lemma in_firstn {A} n (x : A) l : In x (firstn n l) -> In x l.
Proof. intro I. rewrite <- (firstn_skipn n l). apply in_or_app. left. exact I. Qed.
Lemma in_skipn {A} n (x : A) l : In x (skipn n l) -> In x l.
Proof. intro I. rewrite <- (firstn_skipn n l). apply in_or_app. right. exact I. Qed.
Lemma entry_at w i : 0 <= i < 16 -> fr_at (Z.to_nat i) (table w) = chan_freq w i /\ on_at (Z.to_nat i) (table w) = chan_on w i.
Proof. intro Hi. unfold fr_at, on_at. rewrite table_nth by exact Hi. auto. Qed.
Lemma pkt_bytes E w : env_ok E -> bytes_ok (rx_data (received E w)).
Proof. intro HE. apply (ok_pkt_byte E HE). Qed.
Lemma fopts_bytes d : bytes_ok d -> bytes_ok (fr_fopts d).
Proof. intro B. unfold fr_fopts, slice. apply Forall_forall. intros x I. unfold bytes_ok in B. rewrite Forall_forall in B. apply B. eapply (in_skipn 8). eapply in_firstn. exact I. Qed.

Local Ltac keep2 := cbn [snd]; split; [let N := fresh in intro N; destruct (N eq_refl)|let A := fresh in let B := fresh in intros A B; rewrite A in B; discriminate B].
(** A channel's frequency changes only when the application, the region's defaults, an
    accepted join-accept or a NewChannelReq gives it this frequency, and only they, the
    application or a LinkADRReq's mask enable a channel. *)
Theorem C06_frequency_assigned : forall E w o v es w' i,
  env_ok E -> reachable E w -> op_wf o -> step E w o = Some (v, es, w') -> 0 <= i < 16 ->
  (chan_freq w' i <> chan_freq w i -> assigns E w o es i (chan_freq w' i)) /\
  (chan_on w' i = true -> chan_on w i = false -> enables E w o es i).
Proof.
  intros E w o v es w' i HE Hr Hw H Hi. destruct (entry_at w i Hi) as [F0 O0]. destruct (entry_at w' i Hi) as [F1 O1].
  assert (Same : table w' = table w -> (chan_freq w' i <> chan_freq w i -> assigns E w o es i (chan_freq w' i)) /\ (chan_on w' i = true -> chan_on w i = false -> enables E w o es i)).
  { intro T. rewrite <- F0, <- F1, <- O0, <- O1, T. split; [tauto|congruence]. }
  assert (Li : (Z.to_nat i < length (table w))%nat) by (rewrite table_length; lia).
  destruct o; try (apply Same; exact (C08_other_calls E w _ v es w' HE Hr Hw H I)).
  - (* init *) pose proof (C08_init_table E w r v es w' HE Hr H) as T. rewrite <- F0, <- F1, <- O0, <- O1, T. clear - Li Hi. pose proof (table_length w) as L. unfold fr_at, on_at, table_init.
    destruct (table w) as [|t0 [|t1 [|t2 [|t3 [|t4 [|t5 [|t6 [|t7 [|t8 [|t9 [|t10 [|t11 [|t12 [|t13 [|t14 [|t15 [|]]]]]]]]]]]]]]]]]; try discriminate L.
    assert (J : i = 0 \/ i = 1 \/ i = 2 \/ i = 3 \/ i = 4 \/ i = 5 \/ i = 6 \/ i = 7 \/ i = 8 \/ i = 9 \/ i = 10 \/ i = 11 \/ i = 12 \/ i = 13 \/ i = 14 \/ i = 15) by lia.
    assert (G : forall f, 0 <= i -> nth_error (region_defaults r) (Z.to_nat i) = Some f -> assigns E w (OInit r) es i f) by (intros f A B; exact (assigns_region E w r es i f A B)).
    destruct r; repeat (destruct J as [->|J]); try (subst i); (split; [first [intros _; apply G; [lia|reflexivity]|intro N; destruct (N eq_refl)]|intros P _; first [discriminate P|eapply enables_given, G; [lia|reflexivity]]]).
  - (* enable channel *) destruct (C08_enable_channel E w index enable HE Hr Hw) as (w1 & S1 & T & _). rewrite S1 in H. injection H as <- <- <-. rewrite <- F0, <- F1, <- O0, <- O1, T.
    unfold map_enable. destruct (16 <=? index); [keep2|]. destruct (enable && _); [keep2|]. cbn [snd]. unfold fr_at, on_at.
    destruct (Nat.lt_ge_cases (Z.to_nat index) (length (table w))) as [Lj|Lj]; [|rewrite upd_ge by lia; keep2].
    rewrite nth_upd by exact Lj. destruct (Nat.eqb_spec (Z.to_nat i) (Z.to_nat index)) as [e|e]; [|keep2]. cbn [fst snd]. rewrite e. split; [intro N; destruct (N eq_refl)|]. intros -> _.
    assert (index = i) by (cbn in Hw; unfold is_u8, is_byte in Hw; lia). subst index. apply enables_app.
  - (* set channel *) destruct (C08_set_channel E w index frequency HE Hr Hw) as (w1 & S1 & T & _). rewrite S1 in H. injection H as <- <- <-. rewrite <- F0, <- F1, <- O0, <- O1, T.
    unfold map_set. destruct (16 <=? index); [keep2|]. destruct (legal_freq frequency) eqn:Lf; [|keep2]. cbn [snd]. unfold fr_at, on_at.
    destruct (Nat.lt_ge_cases (Z.to_nat index) (length (table w))) as [Lj|Lj]; [|rewrite upd_ge by lia; keep2].
    rewrite nth_upd by exact Lj. destruct (Nat.eqb_spec (Z.to_nat i) (Z.to_nat index)) as [e|e]; [|keep2]. cbn [fst snd].
    assert (index = i) by (cbn in Hw; unfold is_u8, is_byte in Hw; lia). subst index. split; [intros _; apply assigns_app, Lf|intros _ _; eapply enables_given, assigns_app, Lf].
  - (* a radio event *) destruct (receives_dec w mask) as [R|R]; [|apply Same; apply (C27_no_frame_inert E w mask v es w' HE Hr Hw R H)].
    destruct (joining w) eqn:J.
    + destruct (handed_ok es) eqn:Ok; [|apply Same; apply (proj2 (C69_receive E w mask v es w' HE Hr Hw H) J Ok)].
      unfold handed_ok in Ok. apply existsb_exists in Ok as ([[e t] view] & Ic & Oe). destruct e; try discriminate Oe. clear Oe.
      destruct (C10_downlink_authentic E w (OIrq mask) v es w' t view HE Hr Hw H Ic) as (m & _ & _ & Cb & [(_ & -> & _)|(J' & _)]); [|congruence].
      destruct (Nat.eq_dec (length (rx_data (received E w))) 33) as [L33|L33]; [|apply Same; exact (C29_no_cflist E w mask v es w' view HE Hr Hw R J H Cb L33)].
      destruct (C26_accepted_fields E w mask v es w' view HE Hr Hw R J H Cb) as (Hv & _). destruct (join_ok_case E w mask v es w' HE Hr Hw R J H Hv) as (_ & _ & _ & _ & _ & Hin).
      destruct (in_table _ _ _ _ _ _ _ _ _ _ _ Hin) as (r & Hrg & _).
      pose proof (C29_cflist E w mask v es w' view r HE Hr Hw R J H Cb L33 Hrg i Hi) as X. cbv zeta in X. fold (cflist_of E w) in X.
      assert (Ks : chan_freq w' i = chan_freq w i /\ chan_on w' i = chan_on w i -> (chan_freq w' i <> chan_freq w i -> assigns E w (OIrq mask) es i (chan_freq w' i)) /\ (chan_on w' i = true -> chan_on w i = false -> enables E w (OIrq mask) es i)).
      { intros [A B]. split; [intro N; destruct (N A)|intros P N; congruence]. }
      destruct (at_ (cflist_of E w) 15 =? 0) eqn:Ty; cbn [negb] in X; [|exact (Ks X)]. apply Z.eqb_eq in Ty.
      set (first := match r with EU868 => 3 | RU864 => 2 end) in X. destruct ((first <=? i) && (i <? first + 5)) eqn:In5; [|exact (Ks X)]. set (f := 100 * unle (slice (cflist_of E w) (Z.to_nat (3 * (i - first))) 3)) in X.
      destruct (f =? 0); [destruct X as [A B]; split; [intro N; destruct (N A)|intro P; congruence]|]. destruct ((860000000 <=? f) && (f <=? 870000000)) eqn:Lf; [|exact (Ks X)]. destruct X as [A B].
      assert (G : assigns E w (OIrq mask) es i f).
      { eapply assigns_cflist; [exact R|exact J|exact Cb| |exact Lf]. split; [exact L33|]. split; [exact Ty|]. exists r, (i - first). split; [exact Hrg|]. apply andb_prop in In5 as [I1 I2]. split; [lia|]. split; [|reflexivity].
        unfold first. destruct r; unfold len; cbn [region_defaults length]; lia. }
      rewrite A. split; [intros _; exact G|intros _ _; eapply enables_given, G].
    + pose proof (data_outcome E w mask v es w' HE (reach_Inv E w HE Hr) H R J) as O. set (d := rx_data (received E w)) in *.
      destruct O as [r t vw A B C D F K|r c t vw A1 A2 A3 A4 A5 A6 C K1 K2 K3 K4 K5].
      { apply Same. destruct K as (Q1 & _ & Q2 & _). unfold table, chan_table. rewrite Q1. reflexivity. }
      assert (Fi : Forall index_ok (mac_parse (fr_fopts d))) by (eapply parse_index; [reflexivity|apply fopts_bytes, pkt_bytes, HE]).
      destruct (run_table (rx_ctx E w) _ (cmd_hist E w) (dev_w w) (Z.to_nat i) Fi Li) as (_ & X & Y). rewrite <- K5 in X, Y. cbn [fst] in X, Y. change (v_table (dev_w w')) with (table w') in X, Y. change (v_table (dev_w w)) with (table w) in X, Y.
      rewrite F0, F1 in X. rewrite O0, O1 in Y. unfold gives, masks_in in X, Y. rewrite Z2Nat.id in X, Y by lia.
      assert (Fh : forall c, In c (mac_parse (fr_fopts d)) -> frame_has E w c) by (intros c' Ic; split; [exact J|]; split; [exact A2|]; split; [exact A3|]; split; [exact A4|exact Ic]).
      split.
      * intro N. destruct (X N) as (c' & Ic & -> & Lf). apply assigns_network; [exact R|apply Fh, Ic|exact Lf].
      * intros P N. destruct (Y P N) as (c' & Ic & [(f & -> & Lf)|(dr & p & mk & cn & nb & -> & Tb)]); [eapply enables_given, assigns_network; [exact R|apply Fh, Ic|exact Lf]|eapply enables_mask; [exact R|apply Fh, Ic|exact Tb]].
Qed.
Print Assumptions C06_frequency_assigned.

(** three calls and two kinds of frames that do so *)
Example C06_set_case : case_of (demo [] []) (abp 0 0) (OSetChannel 5 867100000) (fun w v es w' => (chan_freq w 5 =? 0) && (chan_freq w' 5 =? 867100000) && negb (chan_on w 5) && chan_on w' 5).
Proof. show_case. Qed.
Example C06_network_case : case_of (demo [] [(dl 8 false 0 [7; 9; 24; 79; 132; 80] None, 9)]) (abp 0 7 ++ after_uplink) (OIrq 2)
  (fun w v es w' => recvb w 2 && negb (joining w) && (chan_freq w 9 =? 0) && (chan_freq w' 9 =? 867100000) && chan_on w' 9).
Proof. show_case. Qed.
Example C06_mask_case : case_of (demo [] [(dl 8 false 0 [3; 80; 7; 0; 1] None, 9)]) (abp 0 7 ++ [OEnableChannel 1 false] ++ after_uplink) (OIrq 2)
  (fun w v es w' => recvb w 2 && negb (chan_on w 1) && chan_on w' 1).
Proof. show_case. Qed.

(** ** histories *)
Lemma stays_snoc E P o w : forall ops tr w1 v es w', exec E w1 ops tr w -> step E w o = Some (v, es, w') -> stays E P w1 ops -> P w' -> stays E P w1 (ops ++ [o]).
Proof.
  induction ops as [|o' ops IH]; intros tr w1 v es w' X S St Pw; inversion X as [|? ? ? v1 es1 w2 tr1 ? S1 X1]; subst; cbn [stays app] in *.
  - rewrite S. destruct St as [St _]. cbn. auto.
  - rewrite S1 in *. destruct St as [St1 St2]. split; [exact St1|]. eapply IH; eassumption.
Qed.
Lemma since_ok E (P : world -> Prop) (A : world -> op -> list ev -> Prop) : env_ok E -> (forall w, P w \/ ~ P w) -> ~ P world0 ->
  (forall w o v es w', reachable E w -> op_wf o -> step E w o = Some (v, es, w') -> ~ P w -> P w' -> A w o es) ->
  forall ops tr w, Forall op_wf ops -> exec E world0 ops tr w -> P w -> since E tr w P A.
Proof.
  intros HE Dec N0 G. apply (exec_snoc_ind E (fun tr w => P w -> since E tr w P A) HE); [intro Pw; destruct (N0 Pw)|].
  intros ops tr w0 o v es w W X _ R IH Wo S Pw. destruct (Dec w0) as [P0|P0].
  - destruct (IH P0) as (ops1 & t1 & w1 & o1 & v1 & es1 & w2 & ops2 & t2 & -> & Y1 & S1 & Y2 & HA & St).
    exists ops1, t1, w1, o1, v1, es1, w2, (ops2 ++ [o]), (t2 ++ [(o, v, es)]). split; [rewrite <- app_assoc; reflexivity|]. split; [exact Y1|]. split; [exact S1|].
    split; [eapply exec_app; [exact Y2|]; econstructor; [exact S|constructor]|]. split; [exact HA|]. eapply stays_snoc; eassumption.
  - exists ops, tr, w0, o, v, es, w, [], []. split; [reflexivity|]. split; [exact X|]. split; [exact S|]. split; [constructor|]. split; [exact (G w0 o v es w R Wo S P0 Pw)|]. split; [exact Pw|exact I].
Qed.
(** After any history, a join request or data uplink is sent on the frequency of a
    channel; the channel has this frequency since it was assigned to it, and is enabled
    since it was enabled. *)
Theorem C06_history : forall E ops tr w o v es w', env_ok E -> Forall op_wf ops -> exec E world0 ops tr w -> op_wf o ->
  step E w o = Some (v, es, w') -> tx_frames es <> [] ->
  exists i f prm power frame, 0 <= i < 16 /\ transmits es f prm power frame /\ 860000000 <= f <= 870000000 /\
    since E tr w (fun x => chan_freq x i = f) (fun x o es => assigns E x o es i f) /\
    since E tr w (fun x => chan_on x i = true) (fun x o es => enables E x o es i).
Proof.
  intros E ops tr w o v es w' HE W X Wo S T. assert (Hr : reachable E w) by (exists ops, tr; auto).
  destruct (C06_enabled_legal_channel E w o v es w' HE Hr Wo S T) as (i & prm & power & f & Hi & On & Lg & Tx). exists i, (chan_freq w i), prm, power, f. split; [exact Hi|]. split; [exact Tx|]. split; [exact Lg|]. split.
  - eapply since_ok; try eassumption; [intro x; destruct (Z.eq_dec (chan_freq x i) (chan_freq w i)); auto| | |reflexivity].
    + intro Q. assert (Z0 : chan_freq world0 i = 0). { clear - Hi. assert (J : In (Z.to_nat i) (seq 0 16)) by (apply in_seq; lia). unfold chan_freq. revert J. generalize (Z.to_nat i). intros n J. cbn [seq In] in J. repeat (destruct J as [<-|J]; [reflexivity|]). destruct J. } lia.
    + intros x o1 v1 es1 x' Rx W1 S1 N Q. destruct (C06_frequency_assigned E x o1 v1 es1 x' i HE Rx W1 S1 Hi) as [A _]. rewrite <- Q. apply A. congruence.
  - eapply since_ok; try eassumption; [intro x; destruct (chan_on x i); auto| |].
    + intro Q. assert (Z0 : chan_on world0 i = false). { clear - Hi. assert (J : i = 0 \/ i = 1 \/ i = 2 \/ i = 3 \/ i = 4 \/ i = 5 \/ i = 6 \/ i = 7 \/ i = 8 \/ i = 9 \/ i = 10 \/ i = 11 \/ i = 12 \/ i = 13 \/ i = 14 \/ i = 15) by lia. repeat (destruct J as [->|J]; [reflexivity|]). subst i. reflexivity. } congruence.
    + intros x o1 v1 es1 x' Rx W1 S1 N Q. destruct (C06_frequency_assigned E x o1 v1 es1 x' i HE Rx W1 S1 Hi) as [_ A]. apply A; [exact Q|]. destruct (chan_on x i); [destruct (N eq_refl)|reflexivity].
Qed.
Print Assumptions C06_history.
(** an uplink on channel 9, the only one left, which a NewChannelReq has created *)
Example C06_history_case : case_of (demo [1000003] [(dl 8 false 0 [7; 9; 24; 79; 132; 80] None, 9)])
  (abp 0 7 ++ after_uplink ++ [OIrq 2; OEnableChannel 0 false; OEnableChannel 1 false; OEnableChannel 2 false]) (OSend 1 [1] false)
  (fun w v es w' => match freqs es with [867100000] => negb (is_nil (tx_frames es)) && (chan_freq w 9 =? 867100000) | _ => false end).
Proof. show_case. Qed.
