(** LChan.v -- the channel table as a finite map (infrastructure for C06 - C08, C29). *)
From Verif Require Export LDown SpecChan.

Lemma tbl_nth c i : 0 <= i < 16 -> nth (Z.to_nat i) (tbl c) (0, false) = (cfreq c i, cbit c i).
Proof.
  intro H. unfold tbl. set (f := fun k => _).
  rewrite nth_indep with (d' := f 0%nat) by (rewrite map_length, seq_length; lia).
  rewrite map_nth, seq_nth by lia. unfold f. cbn [Nat.add]. rewrite Z2Nat.id by lia. reflexivity.
Qed.
Lemma tbl_upd c c' i e : 0 <= i < 16 ->
  (forall j, 0 <= j < 16 -> (cfreq c' j, cbit c' j) = if j =? i then e else (cfreq c j, cbit c j)) ->
  tbl c' = upd (Z.to_nat i) e (tbl c).
Proof.
  intros Hi H. unfold tbl. rewrite upd_map. apply map_ext_in. intros j Hj. apply in_seq in Hj.
  rewrite H by lia. destruct (Nat.eqb_spec j (0 + Z.to_nat i)); destruct (Z.eqb_spec (Z.of_nat j) i); try lia; reflexivity.
Qed.
Lemma cfreq_eq c c' i : uw_channels c' = uw_channels c -> cfreq c' i = cfreq c i.
Proof. unfold cfreq. intros ->. reflexivity. Qed.
Lemma tbl_r_set i f c : chans_ok c -> 0 <= i ->
  (fst (r_set i f c), tbl (snd (r_set i f c))) = map_set i f (tbl c).
Proof.
  intros Hc Hi. unfold r_set, map_set. change (is_valid_frequency f) with (legal_freq f).
  destruct (Z.leb_spec 16 i); [reflexivity|]. destruct (legal_freq f) eqn:Ef; [|reflexivity]. cbn [negb fst snd].
  rewrite tbl_set; [reflexivity|exact Hc|lia|]. apply is_valid_frequency_spec. exact Ef.
Qed.
Lemma tbl_r_enable i en c : chans_ok c -> 0 <= i ->
  (fst (r_enable i en c), tbl (snd (r_enable i en c))) = map_enable i en (tbl c).
Proof.
  intros Hc Hi. unfold r_enable, map_enable. destruct (Z.leb_spec 16 i); [reflexivity|].
  rewrite tbl_nth by lia. cbn [fst]. destruct en; cbn [andb].
  - destruct (Z.eqb_spec (cfreq c i) 0); [reflexivity|]. cbn [fst snd].
    destruct (p_enable_spec i c Hc ltac:(lia) n) as (_ & Hb & Hf & _). f_equal.
    apply tbl_upd; [lia|]. intros j Hj. rewrite Hb by lia. rewrite (cfreq_eq _ _ j Hf).
    destruct (Z.eqb_spec j i); [subst; reflexivity|reflexivity].
  - cbn [fst snd]. destruct (p_disable_spec i c Hc ltac:(lia)) as (_ & Hb & Hf). f_equal.
    apply tbl_upd; [lia|]. intros j Hj. rewrite Hb by lia. rewrite (cfreq_eq _ _ j Hf).
    destruct (Z.eqb_spec j i); [subst; reflexivity|reflexivity].
Qed.
Lemma table_tbl w : Inv (w_st w) -> table w = tbl (s_ch (w_st w)).
Proof. intro HI. apply chan_table_tbl. apply HI. Qed.
Lemma tbl_p_set i f c : chans_ok c -> 0 <= i < 16 -> 860000000 <= f <= 870000000 ->
  tbl (p_set i f c) = upd (Z.to_nat i) (f, true) (tbl c) /\ chans_ok (p_set i f c).
Proof. intros Hc Hi Hf. split; [apply tbl_set; assumption|apply p_set_spec; assumption]. Qed.
Lemma tbl_clear c : chans_ok c -> tbl (clear_ch c) = map (fun e => (fst e, false)) (tbl c).
Proof.
  intro Hc. unfold tbl. rewrite map_map. apply map_ext_in. intros i Hi. apply in_seq in Hi.
  rewrite (proj2 (clear_ch_ok c Hc)) by lia. reflexivity.
Qed.
Lemma tbl_region r c : chans_ok c -> tbl (region_chans r c) = put_from 0 (region_defaults r) (tbl c).
Proof.
  intros Hc. destruct r; cbn [region_chans region_defaults put_from].
  - destruct (tbl_p_set 0 868100000 c Hc ltac:(lia) ltac:(lia)) as [A1 B1].
    destruct (tbl_p_set 1 868300000 _ B1 ltac:(lia) ltac:(lia)) as [A2 B2].
    destruct (tbl_p_set 2 868500000 _ B2 ltac:(lia) ltac:(lia)) as [A3 B3].
    rewrite A3, A2, A1. reflexivity.
  - destruct (tbl_p_set 0 868900000 c Hc ltac:(lia) ltac:(lia)) as [A1 B1].
    destruct (tbl_p_set 1 869100000 _ B1 ltac:(lia) ltac:(lia)) as [A2 B2].
    rewrite A2, A1. reflexivity.
Qed.
Lemma table_length w : length (table w) = 16%nat.
Proof. unfold table, chan_table. rewrite map_length, seq_length. reflexivity. Qed.
Lemma table_nth w i : 0 <= i < 16 -> nth (Z.to_nat i) (table w) (0, false) = (chan_freq w i, chan_on w i).
Proof.
  intro H. unfold table, chan_table.
  set (f := fun k => _). rewrite nth_indep with (d' := f 0%nat) by (rewrite map_length, seq_length; lia).
  rewrite map_nth, seq_nth by lia. unfold f, chan_freq, chan_on. cbn [Nat.add]. rewrite Z2Nat.id by lia. reflexivity.
Qed.

(** calls that do not touch the table *)
Lemma step_ch_same E w o v es w' : env_ok E -> Inv (w_st w) -> op_wf o -> step E w o = Some (v, es, w') ->
  match o with OSetChannel _ _ | OEnableChannel _ _ | OInit _ | OIrq _ => False | _ => True end ->
  s_ch (w_st w') = s_ch (w_st w).
Proof.
  intros HE HI Hw H Ho. apply step_inv in H; try assumption. destruct H; try contradiction.
  - destruct o; cbn [simple] in H; try discriminate; try contradiction;
      repeat match type of H with context [if ?b then _ else _] => destruct b end;
      injection H as <- <-; reflexivity.
  - inv_ok H; reflexivity.
  - inv_ok H; reflexivity.
  - reflexivity.
  - rewrite H. reflexivity.
  - reflexivity.
  - inv_ok H0; reflexivity.
  - reflexivity.
  - inv_ok H0; reflexivity.
Qed.

(** ** CFList *)
Lemma cf_freq_slice fl k : len fl = 16 -> (k < 5)%nat -> 100 * cf_freq fl (Z.of_nat k) = cf_freq_hz fl k.
Proof.
  intros Hl Hk. unfold cf_freq_hz. rewrite slice_get by (unfold len in Hl; lia).
  cbn [seq map unle]. unfold cf_freq.
  replace (Z.of_nat (S (3 * k))) with (3 * Z.of_nat k + 1) by lia.
  replace (Z.of_nat (S (S (3 * k)))) with (3 * Z.of_nat k + 2) by lia.
  replace (Z.of_nat (3 * k)) with (3 * Z.of_nat k) by lia. lia.
Qed.
Lemma tbl_cf1 (i k : nat) fl c : chans_ok c -> (i < 16)%nat -> (k < 5)%nat -> bytes_ok fl -> len fl = 16 ->
  tbl (p_cf1 (Z.of_nat i) (cf_freq fl (Z.of_nat k)) c) = cf_put i (cf_freq_hz fl k) (tbl c).
Proof.
  intros Hc Hi Hk Hb Hl. rewrite <- cf_freq_slice by assumption. set (f := cf_freq fl (Z.of_nat k)).
  pose proof (cf_freq_range fl (Z.of_nat k) Hb) as Hf. fold f in Hf.
  unfold p_cf1, cf_put. replace (100 * f =? 0) with (f =? 0) by lia.
  destruct (Z.eqb_spec f 0).
  - pose proof (tbl_r_enable (Z.of_nat i) false c Hc ltac:(lia)) as H. unfold map_enable in H.
    replace (16 <=? Z.of_nat i) with false in H by lia. cbn [andb] in H. rewrite Nat2Z.id in H.
    apply (f_equal snd) in H; exact H.
  - pose proof (tbl_r_set (Z.of_nat i) (u32 (f * 100)) c Hc ltac:(lia)) as H. unfold map_set in H.
    replace (16 <=? Z.of_nat i) with false in H by lia. rewrite Nat2Z.id in H.
    rewrite u32_id in H by lia. rewrite (Z.mul_comm f 100) in H. rewrite (u32_id (f * 100)) by lia.
    rewrite (Z.mul_comm f 100). destruct (legal_freq (100 * f)); apply (f_equal snd) in H; exact H.
Qed.
Lemma tbl_cflist n : forall k first fl c, chans_ok c -> bytes_ok fl -> len fl = 16 -> (k + n <= 5)%nat -> (k + first + n <= 16)%nat ->
  tbl (p_cflist n (Z.of_nat k) (Z.of_nat first) fl c) =
  fold_left (fun t k => cf_put (first + k) (cf_freq_hz fl k) t) (seq k n) (tbl c).
Proof.
  induction n; intros k first fl c Hc Hb Hl Hk Hf; [reflexivity|]. cbn [p_cflist seq fold_left].
  rewrite <- tbl_cf1 by (assumption || lia).
  replace (Z.of_nat k + 1) with (Z.of_nat (S k)) by lia.
  replace (Z.of_nat k + Z.of_nat first) with (Z.of_nat (first + k)) by lia.
  apply IHn; try assumption; try lia. apply p_cf1_ok; [assumption|lia].
Qed.
Lemma tbl_cf r fl c : chans_ok c -> bytes_ok fl -> len fl = 16 -> tbl (p_cf r fl c) = cflist_apply r fl (tbl c).
Proof.
  intros Hc Hb Hl. unfold p_cf, cflist_apply. rewrite at_get. change (Z.of_nat 15) with 15.
  destruct (get fl 15 =? 0); [|reflexivity].
  rewrite <- (tbl_cflist 5 0 (length (region_defaults r)) fl c); try assumption; try (destruct r; cbn; lia).
  destruct r; reflexivity.
Qed.
