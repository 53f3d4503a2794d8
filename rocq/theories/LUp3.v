(** LUp3.v -- proofs of the counter, result-code, refusal, channel and power
    properties (C03 - C07, C25, C39). *)
From Verif Require Export LUp2.

(** ** The session over one call *)
Record same_session (a b : session) : Prop := Mk_same_session {
  ss_addr : dev_addr b = dev_addr a;
  ss_nwk : nwk_s_key b = nwk_s_key a;
  ss_app : app_s_key b = app_s_key a
}.
Lemma same_session_refl a : same_session a a.
Proof. constructor; reflexivity. Qed.
Lemma same_session_trans a b c : same_session a b -> same_session b c -> same_session a c.
Proof. intros [] []. constructor; congruence. Qed.

Lemma get_over0 d F : (0 < length d)%nat -> get (over d F) 0 = get d 0.
Proof. intro H. destruct d; [cbn in H; lia|]. reflexivity. Qed.

Lemma data_ses E d rs sn h s r s2 es : env_ok E -> e_strict_shl E = false -> Inv s -> uw_region (s_stk s) <> None ->
  bytes_ok d -> -128 <= sn < 128 ->
  data_cases E d rs sn h s (Ok (r, s2, es)) ->
  same_session (s_ses s) (s_ses s2) /\ f_cnt_up (s_ses s2) = f_cnt_up (s_ses s) /\
  is_joined (s_ses s2) = is_joined (s_ses s).
Proof.
  intros HE Hns HI Hr Hd Hsn H.
  assert (Ha : same_session (s_ses s) (s_ses (d_ack d s)) /\ f_cnt_up (s_ses (d_ack d s)) = f_cnt_up (s_ses s) /\
               is_joined (s_ses (d_ack d s)) = is_joined (s_ses s))
    by (unfold d_ack; destruct (_ =? 5); repeat split).
  assert (Hq : forall c, new_cnt (f_cnt_down (s_ses s)) (g16 d 6) = Some c ->
     same_session (s_ses s) (s_ses (fst (d_cmds E h d sn c s))) /\
     f_cnt_up (s_ses (fst (d_cmds E h d sn c s))) = f_cnt_up (s_ses s) /\
     is_joined (s_ses (fst (d_cmds E h d sn c s))) = is_joined (s_ses s)).
  { intros c Hc. destruct (d_cmds_facts E h d sn c s HE Hns HI Hr Hd Hsn) as (_ & F & _).
    { eapply new_cnt_range; [|exact Hc]. apply g16_range. exact Hd. }
    destruct (d_cnt_facts d sn c s) as (_ & _ & _ & _ & _ & Hs). destruct F. rewrite Hs in *.
    destruct (d_mtype d =? 5); cbn in *; repeat split; congruence. }
  inv_ok H; auto; try (repeat split; reflexivity).
  match goal with Hc : new_cnt _ _ = Some ?c |- _ => exact (Hq c Hc) end.
Qed.

Lemma dl_ses E h s s' es : env_ok E -> e_strict_shl E = false -> Inv s -> uw_region (s_stk s) <> None ->
  dl_cases E h s (Ok (tt, s', es)) ->
  accepts_join es \/
  (same_session (s_ses s) (s_ses s') /\ f_cnt_up (s_ses s') = f_cnt_up (s_ses s) /\
   is_joined (s_ses s') = is_joined (s_ses s)).
Proof.
  intros HE Hns HI Hr H.
  assert (HI1 : Inv (rx_state (rx_data (e_pkt E h)) s))
    by (apply rx_state_Inv; [exact HI|apply (ok_pkt_byte E HE)|apply (ok_pkt_len E HE)]).
  inv_ok H.
  - match goal with H : ja_cases _ _ _ _ |- _ => inv_ok H end; try (right; repeat split; reflexivity).
    left. eexists. do 2 right. apply in_or_app. right. left.
    f_equal. unfold s1. unfold rx_state. rewrite frame_with. rewrite get_over0.
    + match goal with H : get _ 0 = 32 |- _ => rewrite H end. reflexivity.
    + unfold d in *. unfold len in *. lia.
  - right. match goal with H : data_cases _ _ _ _ _ _ _ |- _ =>
      eapply data_ses in H; [exact H|exact HE|exact Hns|exact HI1|exact Hr|apply (ok_pkt_byte E HE)|apply (ok_pkt_snr E HE)] end.
Qed.

Lemma irq_ses E m h s s' es : env_ok E -> e_strict_shl E = false -> Inv s ->
  irq_cases E m h s (Ok (tt, s', es)) ->
  accepts_join es \/
  (same_session (s_ses s) (s_ses s') /\ f_cnt_up (s_ses s') = f_cnt_up (s_ses s) /\
   is_joined (s_ses s') = is_joined (s_ses s)).
Proof.
  intros HE Hns HI H. inv_ok H; try (right; repeat split; reflexivity).
  - match goal with H : dl_cases _ _ _ _ |- _ =>
      destruct (dl_ses E _ _ _ _ HE Hns (idle_Inv s HI ltac:(congruence)) (idle_region s HI ltac:(congruence)) H) as [(v & A)|A] end.
    + left. exists v. right. exact A.
    + right. exact A.
  - match goal with H : dl_cases _ _ _ _ |- _ =>
      exact (dl_ses E _ _ _ _ HE Hns (idle_Inv s HI ltac:(congruence)) (idle_region s HI ltac:(congruence)) H) end.
Qed.

Lemma step_ses E w o v es w' : env_ok E -> Inv (w_st w) -> op_wf o -> step E w o = Some (v, es, w') ->
  ~ new_session_entry (o, v, es) ->
  same_session (ses w) (ses w') /\
  f_cnt_up (ses w') = (f_cnt_up (ses w) + Z.of_nat (length (data_frames [(o, v, es)]))) mod 4294967296.
Proof.
  intros HE HI Hw H Hn. pose proof (sk_up _ (iv_ses _ HI)) as Hup. unfold ses.
  assert (Hid : f_cnt_up (s_ses (w_st w)) = (f_cnt_up (s_ses (w_st w)) + 0) mod 4294967296)
    by (rewrite Z.add_0_r, Z.mod_small by lia; reflexivity).
  pose proof (step_tx E w o v es w' HE HI Hw H) as T.
  unfold data_frames. cbn [flat_map fst snd]. rewrite app_nil_r. destruct T as [p d c h1 s1 S|A B C D F G|A B].
  - destruct (sent_obs _ _ _ _ _ _ _ _ _ _ _ _ S) as (-> & _). destruct S as [Hcall _ _ Hsame _ _ _ _ Hst _ _ _ _].
    rewrite Hst. destruct Hsame as (cc & ->).
    replace (length match o with OJoin => [] | _ => [send_frame_bytes E p d c (on_cs (fun _ => cc) (w_st w))] end)
      with 1%nat by (destruct o; try reflexivity; discriminate).
    split; [constructor; reflexivity|]. reflexivity.
  - subst o. split; [rewrite F; constructor; reflexivity|]. rewrite F. exact Hid.
  - replace (length match o with OJoin => [] | _ => tx_frames es end) with 0%nat by (destruct o; rewrite ?A; reflexivity).
    change (Z.of_nat 0) with 0. rewrite <- Hid.
    apply step_inv in H; try assumption. destruct H; unfold new_session_entry in Hn; cbn [fst snd] in Hn.
    + destruct o; cbn [simple] in H; try discriminate; try (exfalso; apply Hn; exact I);
        try (injection H as <- <-; split; [constructor; reflexivity|reflexivity]);
        repeat match type of H with context [if ?b then _ else _] => destruct b end;
        injection H as <- <-; split; try (constructor; reflexivity); reflexivity.
    + exfalso. apply Hn. exact I.
    + destruct B as (_ & -> & _); [right; reflexivity|]. split; [apply same_session_refl|reflexivity].
    + destruct B as (_ & -> & _); [left; reflexivity|]. split; [apply same_session_refl|reflexivity].
    + split; [apply same_session_refl|reflexivity].
    + destruct (irq_ses _ _ _ _ _ _ (relax_ok E HE) eq_refl HI H) as [X|(X1 & X2 & X3)]; [contradiction|].
      split; assumption.
    + rewrite H. split; [apply same_session_refl|reflexivity].
    + split; [apply same_session_refl|reflexivity].
    + destruct B as (_ & -> & _); [left; reflexivity|]. split; [apply same_session_refl|reflexivity].
    + split; [apply same_session_refl|reflexivity].
    + destruct B as (_ & -> & _); [left; reflexivity|]. split; [apply same_session_refl|reflexivity].
Qed.

(** ** C03 *)

Lemma map_seq_S {A} (f : nat -> A) n : map f (seq 1 n) = map (fun i => f (S i)) (seq 0 n).
Proof. rewrite <- seq_shift, map_map. reflexivity. Qed.
Lemma counters_S start n : 0 <= start < 4294967296 ->
  counters start (S n) = start :: counters ((start + 1) mod 4294967296) n.
Proof.
  intro H. unfold counters. cbn [seq map]. rewrite Z.add_0_r, Z.mod_small by lia. f_equal.
  rewrite map_seq_S. apply map_ext. intro i. rewrite Zplus_mod_idemp_l. f_equal. lia.
Qed.
Lemma counters_NoDup start n : Z.of_nat n <= 4294967296 -> NoDup (counters start n).
Proof.
  intro H. unfold counters.
  assert (Hinj : forall i j, (i < n)%nat -> (j < n)%nat ->
    (start + Z.of_nat i) mod 4294967296 = (start + Z.of_nat j) mod 4294967296 -> i = j).
  { intros i j Hi Hj Heq. assert (((start + Z.of_nat i) - (start + Z.of_nat j)) mod 4294967296 = 0)
      by (rewrite Zminus_mod, Heq, Z.sub_diag; reflexivity).
    apply Z.mod_divide in H0; [|lia]. destruct H0 as [k Hk]. nia. }
  assert (Hin : forall l, NoDup l -> (forall i, In i l -> (i < n)%nat) ->
    NoDup (map (fun i => (start + Z.of_nat i) mod 4294967296) l)).
  { induction l as [|a l IH]; intros Hn Hl; cbn [map]; [constructor|]. inversion Hn; subst. constructor.
    - intro Hm. apply in_map_iff in Hm. destruct Hm as (b & Hb & Hib).
      assert (b = a) by (apply Hinj; [apply Hl; right; assumption|apply Hl; left; reflexivity|exact Hb]). subst. contradiction.
    - apply IH; [assumption|]. intros i Hi. apply Hl. right. exact Hi. }
  apply Hin; [apply seq_NoDup|]. intros i Hi. apply in_seq in Hi. lia.
Qed.

Lemma Forall2_imp {A B} (P Q : A -> B -> Prop) a b : (forall x y, P x y -> Q x y) -> Forall2 P a b -> Forall2 Q a b.
Proof. intros H F. induction F; constructor; auto. Qed.

Lemma C03_counter_step_pf : forall E w o v es w',
  env_ok E -> reachable E w -> op_wf o -> step E w o = Some (v, es, w') ->
  ~ new_session_entry (o, v, es) ->
  f_cnt_up (ses w') =
    (f_cnt_up (ses w) + (if is_uplink_call o && match v with VErr ERR_NO => true | _ => false end then 1 else 0))
    mod 4294967296.
Proof.
  intros E w o v es w' HE Hr Hw H Hn. pose proof (reach_Inv E w HE Hr) as HI.
  destruct (step_ses E w o v es w' HE HI Hw H Hn) as [_ ->]. f_equal. f_equal.
  unfold data_frames. cbn [flat_map fst snd]. rewrite app_nil_r.
  pose proof (step_tx E w o v es w' HE HI Hw H) as T. destruct T as [p d c h1 s1 S|A B C D F G|A B].
  - destruct (sent_obs _ _ _ _ _ _ _ _ _ _ _ _ S) as (-> & _). destruct S as [Hcall Hval _ _ _ _ _ _ _ _ _ _ _]. rewrite Hcall, Hval. cbn [andb].
    destruct o; try reflexivity; discriminate.
  - subst o. reflexivity.
  - replace (length match o with OJoin => [] | _ => tx_frames es end) with 0%nat by (destruct o; rewrite ?A; reflexivity).
    destruct (is_uplink_call o) eqn:Eo; [|reflexivity]. destruct B as [B _]; [left; reflexivity|].
    destruct v as [|b|k|[]]; try reflexivity. congruence.
Qed.

Lemma C03_trace_counters_pf : forall E w ops tr w',
  env_ok E -> reachable E w -> Forall op_wf ops -> exec E w ops tr w' ->
  Forall (fun t => ~ new_session_entry t) tr ->
  let n := length (data_frames tr) in
  Forall2 (uplink_with E (ses w)) (counters (f_cnt_up (ses w)) n) (data_frames tr) /\
  f_cnt_up (ses w') = (f_cnt_up (ses w) + Z.of_nat n) mod 4294967296 /\
  (Z.of_nat n <= 4294967296 -> NoDup (counters (f_cnt_up (ses w)) n)).
Proof.
  intros E w ops tr w' HE Hr Hw H Hn n. split; [|split; [|apply counters_NoDup]]; unfold n; clear n.
  - induction H as [w|w o ops v es w1 tr w2 Hs He IH]; [constructor|].
    inversion Hw as [|? ? Ho Hw']; subst. inversion Hn as [|? ? Hn1 Hn']; subst.
    pose proof (reach_Inv E w HE Hr) as HI. pose proof (step_reach E w o v es w1 Hr Ho Hs) as Hr1.
    specialize (IH Hr1 Hw' Hn').
    destruct (step_ses E w o v es w1 HE HI Ho Hs Hn1) as [[S1 S2 S3] Hc].
    assert (Hd : data_frames ((o, v, es) :: tr) = data_frames [(o, v, es)] ++ data_frames tr)
      by (unfold data_frames; cbn [flat_map]; rewrite app_nil_r; reflexivity).
    assert (Hw1 : forall c f, uplink_with E (ses w1) c f -> uplink_with E (ses w) c f)
      by (intros c f X; unfold uplink_with in *; rewrite S1, S2, S3 in X; exact X).
    assert (IH2 : Forall2 (uplink_with E (ses w)) (counters (f_cnt_up (ses w1)) (length (data_frames tr))) (data_frames tr)).
    { exact (Forall2_imp _ _ _ _ Hw1 IH). }
    assert (Hup : 0 <= f_cnt_up (ses w) < 4294967296) by apply (sk_up _ (iv_ses _ HI)).
    rewrite Hd.
    assert (Hc1 : data_frames [(o, v, es)] = [] \/ exists f, data_frames [(o, v, es)] = [f] /\ uplink_with E (ses w) (f_cnt_up (ses w)) f).
    { unfold data_frames. cbn [flat_map fst snd]. rewrite app_nil_r.
      assert (Hj : o = OJoin \/ o <> OJoin) by (destruct o; auto; right; discriminate).
      destruct Hj as [->|Hj]; [left; reflexivity|].
      destruct (C01_every_uplink_pf E w o v es w1 HE Hr Ho Hj Hs) as [Hz|(cf & p & d & _ & _ & Hz)].
      - left. destruct o; rewrite ?Hz; reflexivity.
      - right. rewrite Hz. eexists. split; [destruct o; try reflexivity; congruence|].
        unfold uplink_with. do 7 eexists. reflexivity. }
    destruct Hc1 as [Hc1|(f & Hc1 & Hf)]; rewrite Hc1 in *; cbn [app length] in *.
    + change (Z.of_nat 0) with 0 in Hc. rewrite Z.add_0_r, Z.mod_small in Hc by exact Hup. rewrite Hc in IH2. exact IH2.
    + rewrite counters_S by exact Hup. change (Z.of_nat 1) with 1 in Hc. rewrite Hc in IH2. constructor; assumption.
  - induction H as [w|w o ops v es w1 tr w2 Hs He IH].
    { pose proof (sk_up _ (iv_ses _ (reach_Inv E w HE Hr))). cbn [data_frames flat_map length].
      change (Z.of_nat 0) with 0. rewrite Z.add_0_r, Z.mod_small by (unfold ses; lia). reflexivity. }
    inversion Hw as [|? ? Ho Hw']; subst. inversion Hn as [|? ? Hn1 Hn']; subst.
    pose proof (reach_Inv E w HE Hr) as HI. pose proof (step_reach E w o v es w1 Hr Ho Hs) as Hr1.
    specialize (IH Hr1 Hw' Hn').
    destruct (step_ses E w o v es w1 HE HI Ho Hs Hn1) as [_ Hc].
    assert (Hd : data_frames ((o, v, es) :: tr) = data_frames [(o, v, es)] ++ data_frames tr)
      by (unfold data_frames; cbn [flat_map]; rewrite app_nil_r; reflexivity).
    rewrite IH, Hc, Hd, app_length, Zplus_mod_idemp_l. f_equal. lia.
Qed.
