(** PChan.v -- proofs about src/channels.c and src/region/common.c. *)
From Verif Require Export Channels Wp.

(** replacing one component of the state *)
Definition with_ch (c : chans) (s : st) : st := on_ch (fun _ => c) s.
Definition with_adr (c : adrst) (s : st) : st := on_adr (fun _ => c) s.
Definition with_mac (c : macst) (s : st) : st := on_mac (fun _ => c) s.
Definition with_ses (c : session) (s : st) : st := on_ses (fun _ => c) s.
Definition with_stk (c : stackst) (s : st) : st := on_stk (fun _ => c) s.
Definition with_cs (c : csync) (s : st) : st := on_cs (fun _ => c) s.

Lemma with_ch_self s : with_ch (s_ch s) s = s.
Proof. destruct s; reflexivity. Qed.
Lemma with_mac_self s : with_mac (s_mac s) s = s.
Proof. destruct s; reflexivity. Qed.
Lemma with_ses_self s : with_ses (s_ses s) s = s.
Proof. destruct s; reflexivity. Qed.
Lemma with_stk_self s : with_stk (s_stk s) s = s.
Proof. destruct s; reflexivity. Qed.
Lemma with_adr_self s : with_adr (s_adr s) s = s.
Proof. destruct s; reflexivity. Qed.
Lemma with_cs_self s : with_cs (s_cs s) s = s.
Proof. destruct s; reflexivity. Qed.

(** the state seen as a map index -> (frequency, enabled) *)
Definition cbit (c : chans) (i : Z) : bool :=
  Z.testbit (get (uw_channels_mask c) (i / 8)) (i mod 8).
Definition cfreq (c : chans) (i : Z) : Z := get (uw_channels c) i.

Record chans_ok (c : chans) : Prop := Mk_chans_ok {
  ck_mask : length (uw_channels_mask c) = 2%nat;
  ck_bytes : bytes_ok (uw_channels_mask c);
  ck_chans : length (uw_channels c) = 16%nat;
  ck_max : 0 <= uw_channels_max_count c <= 16;
  ck_freq : forall i, 0 <= i < 16 ->
    cfreq c i = 0 \/ 860000000 <= cfreq c i <= 870000000;
  ck_on : forall i, 0 <= i < 16 -> cbit c i = true ->
    i < uw_channels_max_count c /\ cfreq c i <> 0
}.

Lemma idx8 i : 0 <= i < 16 -> 0 <= i / 8 < 2 /\ 0 <= i mod 8 < 8 /\ i = 8 * (i / 8) + i mod 8.
Proof.
  intro. pose proof (Z.div_mod i 8 ltac:(lia)). pose proof (Z.mod_pos_bound i 8 ltac:(lia)).
  repeat split; try lia.
Qed.

Lemma land_bit b k : 0 <= k -> negb (Z.land b (Z.shiftl 1 k) =? 0) = Z.testbit b k.
Proof.
  intro Hk. destruct (Z.testbit b k) eqn:E.
  - destruct (Z.eqb_spec (Z.land b (Z.shiftl 1 k)) 0) as [Hz|]; [|reflexivity].
    exfalso. assert (Z.testbit (Z.land b (Z.shiftl 1 k)) k = false) as Hf
      by (rewrite Hz; apply Z.bits_0).
    rewrite Z.land_spec, Z.shiftl_spec, E in Hf by lia.
    replace (k - k) with 0 in Hf by lia. discriminate.
  - replace (Z.land b (Z.shiftl 1 k)) with 0; [reflexivity|].
    symmetry. apply Z.bits_inj'. intros j Hj.
    rewrite Z.land_spec, Z.shiftl_spec, Z.bits_0 by lia.
    destruct (Z.eq_dec j k) as [->|Hn]; [rewrite E; reflexivity|].
    destruct (Z.ltb_spec (j - k) 0).
    + rewrite (Z.testbit_neg_r 1) by lia. apply andb_false_r.
    + replace (Z.testbit 1 (j - k)) with false; [apply andb_false_r|].
      symmetry. apply (testbit_small 1 1); lia.
Qed.

Lemma u8_testbit x j : 0 <= j < 8 -> Z.testbit (u8 x) j = Z.testbit x j.
Proof.
  intro. unfold u8. change 256 with (2 ^ 8). rewrite Z.mod_pow2_bits_low by lia. reflexivity.
Qed.

Lemma shiftl1_testbit k j : 0 <= k -> 0 <= j -> Z.testbit (Z.shiftl 1 k) j = (j =? k).
Proof.
  intros Hk Hj. rewrite Z.shiftl_spec by lia. destruct (Z.eqb_spec j k) as [->|Hn].
  - replace (k - k) with 0 by lia. reflexivity.
  - destruct (Z.ltb_spec (j - k) 0).
    + apply Z.testbit_neg_r. assumption.
    + apply (testbit_small 1 1); lia.
Qed.

Lemma set_testbit b k j : 0 <= k < 8 -> 0 <= j < 8 ->
  Z.testbit (u8 (Z.lor b (Z.shiftl 1 k))) j = (j =? k) || Z.testbit b j.
Proof.
  intros. rewrite u8_testbit, Z.lor_spec, shiftl1_testbit by lia. apply orb_comm.
Qed.
Lemma clr_testbit b k j : 0 <= k < 8 -> 0 <= j < 8 ->
  Z.testbit (u8 (Z.land b (Z.lnot (Z.shiftl 1 k)))) j = negb (j =? k) && Z.testbit b j.
Proof.
  intros. rewrite u8_testbit, Z.land_spec, Z.lnot_spec, shiftl1_testbit by lia. apply andb_comm.
Qed.

(** pure versions *)
Definition p_bitset (i : Z) (c : chans) : chans :=
  set_uw_channels_mask (upd (Z.to_nat (i / 8))
    (u8 (Z.lor (get (uw_channels_mask c) (i / 8)) (Z.shiftl 1 (i mod 8))))
    (uw_channels_mask c)) c.
Definition p_bitclr (i : Z) (c : chans) : chans :=
  set_uw_channels_mask (upd (Z.to_nat (i / 8))
    (u8 (Z.land (get (uw_channels_mask c) (i / 8)) (Z.lnot (Z.shiftl 1 (i mod 8)))))
    (uw_channels_mask c)) c.

Section Bits.
  Context (c : chans).
  Hypothesis (Hm : length (uw_channels_mask c) = 2%nat).

  Lemma bit_is_set_ok i h s : s_ch s = c -> 0 <= i < 16 ->
    bit_is_set i h s = Ok (cbit c i, s, []).
  Proof.
    intros Hc Hi. destruct (idx8 i Hi) as (H1 & H2 & H3).
    unfold bit_is_set, get_ch. rewrite bind_gets, Hc.
    erewrite bind_ok0; [|apply arr_get_ok; unfold len; lia].
    unfold ret. rewrite land_bit by lia. reflexivity.
  Qed.

  Lemma bit_set_ok i h s : s_ch s = c -> 0 <= i < 16 ->
    bit_set i h s = Ok (tt, with_ch (p_bitset i c) s, []).
  Proof.
    intros Hc Hi. destruct (idx8 i Hi) as (H1 & H2 & H3).
    unfold bit_set, get_ch. rewrite bind_gets, Hc.
    erewrite bind_ok0; [|apply arr_get_ok; unfold len; lia].
    erewrite bind_ok0; [|apply arr_set_ok; unfold len; lia].
    subst c. reflexivity.
  Qed.

  Lemma bit_clear_ok i h s : s_ch s = c -> 0 <= i < 16 ->
    bit_clear i h s = Ok (tt, with_ch (p_bitclr i c) s, []).
  Proof.
    intros Hc Hi. destruct (idx8 i Hi) as (H1 & H2 & H3).
    unfold bit_clear, get_ch. rewrite bind_gets, Hc.
    erewrite bind_ok0; [|apply arr_get_ok; unfold len; lia].
    erewrite bind_ok0; [|apply arr_set_ok; unfold len; lia].
    subst c. reflexivity.
  Qed.

  Lemma cbit_bitset i j : 0 <= i < 16 -> 0 <= j < 16 ->
    cbit (p_bitset i c) j = (j =? i) || cbit c j.
  Proof.
    intros Hi Hj. destruct (idx8 i Hi) as (H1 & H2 & H3). destruct (idx8 j Hj) as (H4 & H5 & H6).
    unfold cbit, p_bitset. cbn [uw_channels_mask set_uw_channels_mask].
    rewrite get_upd by (unfold len; lia).
    destruct (Z.eqb_spec (j / 8) (i / 8)) as [He|He].
    - rewrite set_testbit by lia. rewrite He. f_equal. lia.
    - replace (j =? i) with false; [reflexivity|].
      symmetry. apply Z.eqb_neq. intros ->. apply He. reflexivity.
  Qed.

  Lemma cbit_bitclr i j : 0 <= i < 16 -> 0 <= j < 16 ->
    cbit (p_bitclr i c) j = negb (j =? i) && cbit c j.
  Proof.
    intros Hi Hj. destruct (idx8 i Hi) as (H1 & H2 & H3). destruct (idx8 j Hj) as (H4 & H5 & H6).
    unfold cbit, p_bitclr. cbn [uw_channels_mask set_uw_channels_mask].
    rewrite get_upd by (unfold len; lia).
    destruct (Z.eqb_spec (j / 8) (i / 8)) as [He|He].
    - rewrite clr_testbit by lia. rewrite He. f_equal. lia.
    - replace (j =? i) with false; [reflexivity|].
      symmetry. apply Z.eqb_neq. intros ->. apply He. reflexivity.
  Qed.
End Bits.

(** the fields of [c] that the parser of [chans_ok] needs, under bit updates *)
Lemma p_bitset_mask i c : length (uw_channels_mask (p_bitset i c)) = length (uw_channels_mask c).
Proof. apply upd_length. Qed.
Lemma p_bitclr_mask i c : length (uw_channels_mask (p_bitclr i c)) = length (uw_channels_mask c).
Proof. apply upd_length. Qed.

Definition p_enable (i : Z) (c : chans) : chans :=
  p_bitset i (set_uw_channels_max_count (u8 (MAX (uw_channels_max_count c) (i + 1))) c).

Fixpoint p_recompute (n : nat) (i : Z) (c : chans) : chans :=
  match n with
  | O => c
  | S n' => p_recompute n' (i + 1)
      (if cbit c i then set_uw_channels_max_count (u8 (i + 1)) c else c)
  end.

Definition p_disable (i : Z) (c : chans) : chans :=
  let c1 := p_bitclr i c in
  if uw_channels_max_count c =? i + 1 then p_recompute (Z.to_nat i) 0 c1 else c1.

Definition p_set (i f : Z) (c : chans) : chans :=
  p_enable i (set_uw_channels (upd (Z.to_nat i) f (uw_channels c)) c).

Lemma recompute_max_ok n : forall i c h s, s_ch s = c ->
  length (uw_channels_mask c) = 2%nat -> 0 <= i -> i + Z.of_nat n <= 16 ->
  recompute_max n i h s = Ok (tt, with_ch (p_recompute n i c) s, []).
Proof.
  induction n; intros i c h s Hc Hm Hi Hn.
  - cbn. subst c. rewrite with_ch_self. reflexivity.
  - cbn [recompute_max p_recompute].
    rewrite (bind_ok0 _ _ _ _ _ _ (bit_is_set_ok c Hm i h s Hc ltac:(lia))).
    destruct (cbit c i).
    + unfold mod_ch at 1. rewrite bind_modify.
      erewrite IHn; [reflexivity|cbn; subst c; reflexivity|exact Hm|lia|lia].
    + rewrite bind_ret. erewrite IHn; [reflexivity|exact Hc|exact Hm|lia|lia].
Qed.

Lemma p_recompute_frame n : forall i c,
  uw_channels_mask (p_recompute n i c) = uw_channels_mask c /\
  uw_channels (p_recompute n i c) = uw_channels c.
Proof.
  induction n; intros; cbn [p_recompute]; [auto|].
  destruct (cbit c i); rewrite ?(proj1 (IHn _ _)), ?(proj2 (IHn _ _)); auto.
Qed.

(** after the scan, max_count is one above every enabled index below [i + n]
    that was scanned, and never above its old value or the scanned range *)
Lemma p_recompute_max n : forall i c, 0 <= i -> i + Z.of_nat n <= 16 ->
  0 <= uw_channels_max_count c <= 16 ->
  0 <= uw_channels_max_count (p_recompute n i c) <= 16 /\
  (forall j, 0 <= j < i + Z.of_nat n -> cbit c j = true ->
     (j < i -> j < uw_channels_max_count c) ->
     (forall k, 0 <= k < i -> cbit c k = true -> k < uw_channels_max_count c) ->
     (uw_channels_max_count c <= i \/ i + Z.of_nat n < uw_channels_max_count c) ->
     j < uw_channels_max_count (p_recompute n i c)).
Proof.
  induction n; intros i c Hi Hn Hmax.
  - cbn. split; [assumption|]. intros. apply H1. lia.
  - cbn [p_recompute]. destruct (cbit c i) eqn:E.
    + set (c1 := set_uw_channels_max_count (u8 (i + 1)) c).
      assert (Hc1 : uw_channels_max_count c1 = i + 1) by (apply u8_id; lia).
      destruct (IHn (i + 1) c1) as [H1 H2]; [lia|lia|lia|].
      split; [exact H1|]. intros j Hj Hb Hlt Hk Hd.
      apply H2; [lia|exact Hb|lia| |lia].
      intros k Hk1 Hk2. lia.
    + destruct (IHn (i + 1) c) as [H1 H2]; [lia|lia|lia|].
      split; [exact H1|]. intros j Hj Hb Hlt Hk Hd.
      assert (j <> i) by congruence.
      apply H2; [lia|exact Hb|lia| |lia].
      intros k Hk1 Hk2. apply Hk; [|assumption]. assert (k <> i) by congruence. lia.
Qed.

Lemma p_disable_spec i c : chans_ok c -> 0 <= i < 16 ->
  chans_ok (p_disable i c) /\
  (forall j, 0 <= j < 16 -> cbit (p_disable i c) j = negb (j =? i) && cbit c j) /\
  uw_channels (p_disable i c) = uw_channels c.
Proof.
  intros [K1 K2 K3 K4 K5 K6] Hi. unfold p_disable.
  set (c1 := p_bitclr i c).
  assert (M1 : length (uw_channels_mask c1) = 2%nat) by (unfold c1; rewrite p_bitclr_mask; exact K1).
  assert (B1 : bytes_ok (uw_channels_mask c1)).
  { apply bytes_upd; [exact K2|]. apply u8_range. }
  assert (Hb : forall j, 0 <= j < 16 -> cbit c1 j = negb (j =? i) && cbit c j).
  { intros. apply cbit_bitclr; assumption. }
  destruct (Z.eqb_spec (uw_channels_max_count c) (i + 1)) as [He|He].
  - destruct (p_recompute_frame (Z.to_nat i) 0 c1) as [F1 F2].
    assert (Hbb : forall j, cbit (p_recompute (Z.to_nat i) 0 c1) j = cbit c1 j)
      by (intro; unfold cbit; rewrite F1; reflexivity).
    destruct (p_recompute_max (Z.to_nat i) 0 c1) as [X1 X2]; [lia|lia|exact K4|].
    split; [constructor|split].
    + rewrite F1. exact M1.
    + rewrite F1. exact B1.
    + rewrite F2. exact K3.
    + exact X1.
    + intros j Hj. unfold cfreq. rewrite F2. apply K5. assumption.
    + intros j Hj Hj2. rewrite Hbb in Hj2. unfold cfreq. rewrite F2. split.
      2: { rewrite Hb in Hj2 by assumption. apply andb_prop in Hj2. apply K6; tauto. }
      pose proof Hj2 as Hj3. rewrite Hb in Hj3 by assumption. apply andb_prop in Hj3 as [Hne Hcj].
      destruct (K6 j Hj Hcj) as [Hlt _].
      apply X2; [lia|exact Hj2|lia|lia|].
      change (uw_channels_max_count c1) with (uw_channels_max_count c). lia.
    + intros j Hj. rewrite Hbb. apply Hb. assumption.
    + exact F2.
  - split; [constructor|split]; try assumption.
    + intros j Hj Hj2. rewrite Hb in Hj2 by assumption. apply andb_prop in Hj2 as [_ Hcj].
      exact (K6 j Hj Hcj).
    + reflexivity.
Qed.

Lemma MAX_max x y : MAX x y = Z.max x y.
Proof. unfold MAX. destruct (x <? y) eqn:E; lia. Qed.

Lemma p_enable_spec i c : chans_ok c -> 0 <= i < 16 -> cfreq c i <> 0 ->
  chans_ok (p_enable i c) /\
  (forall j, 0 <= j < 16 -> cbit (p_enable i c) j = (j =? i) || cbit c j) /\
  uw_channels (p_enable i c) = uw_channels c /\
  uw_channels_max_count (p_enable i c) = Z.max (uw_channels_max_count c) (i + 1).
Proof.
  intros [K1 K2 K3 K4 K5 K6] Hi Hf. unfold p_enable.
  set (c0 := set_uw_channels_max_count _ c).
  assert (Hmax : uw_channels_max_count c0 = Z.max (uw_channels_max_count c) (i + 1)).
  { unfold c0. cbn [uw_channels_max_count set_uw_channels_max_count].
    rewrite MAX_max. apply u8_id. lia. }
  assert (Hb : forall j, 0 <= j < 16 -> cbit (p_bitset i c0) j = (j =? i) || cbit c j).
  { intros. rewrite cbit_bitset; [reflexivity|exact K1|assumption|assumption]. }
  split; [constructor|split; [exact Hb|split]].
  - rewrite p_bitset_mask. exact K1.
  - apply bytes_upd; [exact K2|]. apply u8_range.
  - exact K3.
  - change (uw_channels_max_count (p_bitset i c0)) with (uw_channels_max_count c0). lia.
  - exact K5.
  - intros j Hj Hj2. rewrite Hb in Hj2 by assumption.
    change (uw_channels_max_count (p_bitset i c0)) with (uw_channels_max_count c0).
    change (cfreq (p_bitset i c0) j) with (cfreq c j).
    destruct (Z.eqb_spec j i) as [->|Hn].
    + split; [lia|exact Hf].
    + cbn in Hj2. destruct (K6 j Hj Hj2). split; [lia|assumption].
  - reflexivity.
  - exact Hmax.
Qed.

Lemma chans_ok_setfreq i f c : chans_ok c -> 0 <= i < 16 -> 860000000 <= f <= 870000000 ->
  chans_ok (set_uw_channels (upd (Z.to_nat i) f (uw_channels c)) c).
Proof.
  intros [K1 K2 K3 K4 K5 K6] Hi Hf. constructor; try assumption.
  - cbn. rewrite upd_length. exact K3.
  - intros j Hj. unfold cfreq. cbn [uw_channels set_uw_channels].
    rewrite get_upd by (unfold len; lia). destruct (j =? i); [lia|]. apply K5. assumption.
  - intros j Hj Hj2. destruct (K6 j Hj Hj2) as [X1 X2]. split; [exact X1|].
    unfold cfreq. cbn [uw_channels set_uw_channels].
    rewrite get_upd by (unfold len; lia). destruct (j =? i); [lia|exact X2].
Qed.

Lemma p_set_spec i f c : chans_ok c -> 0 <= i < 16 -> 860000000 <= f <= 870000000 ->
  chans_ok (p_set i f c) /\
  (forall j, 0 <= j < 16 -> cbit (p_set i f c) j = (j =? i) || cbit c j) /\
  (forall j, 0 <= j < 16 -> cfreq (p_set i f c) j = if j =? i then f else cfreq c j).
Proof.
  intros Hok Hi Hf. unfold p_set. set (c1 := set_uw_channels _ c).
  assert (Hg : forall j, 0 <= j < 16 -> cfreq c1 j = if j =? i then f else cfreq c j).
  { intros j Hj. unfold cfreq, c1. cbn [uw_channels set_uw_channels].
    apply get_upd; [|lia]. unfold len. rewrite (ck_chans _ Hok). lia. }
  destruct (p_enable_spec i c1) as (P1 & P2 & P3 & _).
  - apply chans_ok_setfreq; assumption.
  - assumption.
  - rewrite Hg, Z.eqb_refl by assumption. lia.
  - split; [exact P1|]. split; [exact P2|].
    intros j Hj. unfold cfreq at 1. rewrite P3. apply Hg. assumption.
Qed.

(** the API functions *)
Definition r_enable (i : Z) (en : bool) (c : chans) : err * chans :=
  if 16 <=? i then (ERR_CHANNEL, c)
  else if en then (if cfreq c i =? 0 then (ERR_CHANNEL, c) else (ERR_NO, p_enable i c))
  else (ERR_NO, p_disable i c).

Lemma uwan_enable_channel_ok i en c h s : s_ch s = c -> chans_ok c -> 0 <= i ->
  uwan_enable_channel i en h s = Ok (fst (r_enable i en c), with_ch (snd (r_enable i en c)) s, []).
Proof.
  intros <- Hok Hi. pose proof Hok as [K1 K2 K3 K4 K5 K6].
  unfold uwan_enable_channel, r_enable, MAX_CHANNELS.
  destruct (Z.leb_spec 16 i). { cbn [fst snd]. rewrite with_ch_self. reflexivity. }
  destruct en.
  - unfold get_ch at 1. rewrite bind_gets.
    erewrite bind_ok0; [|apply arr_get_ok; unfold len; lia].
    fold (cfreq (s_ch s) i). destruct (cfreq (s_ch s) i =? 0).
    { cbn [fst snd]. rewrite with_ch_self. reflexivity. }
    unfold get_ch. rewrite bind_gets. unfold mod_ch at 1. rewrite bind_modify.
    erewrite bind_ok0; [|eapply bit_set_ok; [|reflexivity|lia]; cbn; exact K1].
    reflexivity.
  - erewrite bind_ok0; [|eapply bit_clear_ok; [exact K1|reflexivity|lia]].
    unfold get_ch. rewrite bind_gets. unfold p_disable.
    change (uw_channels_max_count (s_ch (with_ch (p_bitclr i (s_ch s)) s)))
      with (uw_channels_max_count (s_ch s)).
    destruct (uw_channels_max_count (s_ch s) =? i + 1).
    + erewrite bind_ok0; [|eapply recompute_max_ok; [reflexivity| |lia|lia]].
      * reflexivity.
      * cbn [s_ch with_ch on_ch]. rewrite p_bitclr_mask. exact K1.
    + rewrite bind_ret. reflexivity.
Qed.

Lemma r_enable_ok i en c : chans_ok c -> 0 <= i -> chans_ok (snd (r_enable i en c)).
Proof.
  intros Hok Hi. unfold r_enable. destruct (Z.leb_spec 16 i); [exact Hok|].
  destruct en.
  - destruct (Z.eqb_spec (cfreq c i) 0); [exact Hok|]. apply p_enable_spec; [exact Hok|lia|assumption].
  - apply p_disable_spec; [exact Hok|lia].
Qed.

Definition r_set (i f : Z) (c : chans) : err * chans :=
  if 16 <=? i then (ERR_CHANNEL, c)
  else if negb (is_valid_frequency f) then (ERR_FREQUENCY, c)
  else (ERR_NO, p_set i f c).

Lemma is_valid_frequency_spec f : is_valid_frequency f = true <-> 860000000 <= f <= 870000000.
Proof. unfold is_valid_frequency, FREQ_MIN, FREQ_MAX. lia. Qed.

Lemma uwan_set_channel_ok i f c h s : s_ch s = c -> chans_ok c -> 0 <= i ->
  uwan_set_channel i f h s = Ok (fst (r_set i f c), with_ch (snd (r_set i f c)) s, []).
Proof.
  intros <- Hok Hi. pose proof Hok as [K1 K2 K3 K4 K5 K6].
  unfold uwan_set_channel, r_set, MAX_CHANNELS.
  destruct (Z.leb_spec 16 i). { cbn [fst snd]. rewrite with_ch_self. reflexivity. }
  destruct (is_valid_frequency f) eqn:Ef; cbn [negb].
  2: { cbn [fst snd]. rewrite with_ch_self. reflexivity. }
  apply is_valid_frequency_spec in Ef.
  unfold get_ch at 1. rewrite bind_gets.
  erewrite bind_ok0; [|apply arr_set_ok; unfold len; lia].
  unfold mod_ch at 1. rewrite bind_modify.
  erewrite bind_ok0; [|apply uwan_enable_channel_ok; [reflexivity| |lia]].
  - unfold r_enable. destruct (Z.leb_spec 16 i); [lia|].
    match goal with |- context [if ?b then (ERR_CHANNEL, _) else _] => destruct b eqn:Eb end.
    + exfalso. apply Z.eqb_eq in Eb. unfold cfreq in Eb. cbn [s_ch on_ch uw_channels set_uw_channels] in Eb.
      rewrite get_upd in Eb by (unfold len; lia). rewrite Z.eqb_refl in Eb. lia.
    + reflexivity.
  - cbn [s_ch on_ch]. apply chans_ok_setfreq; [assumption|lia|assumption].
Qed.

Lemma r_set_ok i f c : chans_ok c -> 0 <= i -> chans_ok (snd (r_set i f c)).
Proof.
  intros Hok Hi. unfold r_set. destruct (Z.leb_spec 16 i); [exact Hok|].
  destruct (is_valid_frequency f) eqn:Ef; cbn [negb]; [|exact Hok].
  apply is_valid_frequency_spec in Ef. apply p_set_spec; [exact Hok|lia|assumption].
Qed.

(** channel selection *)
Fixpoint p_next_loop (n : nat) (c : chans) (start ch : Z) : Z :=
  match n with
  | O => 0
  | S n' =>
      if cbit c ch then cfreq c ch else
      let ch' := (ch + 1) mod uw_channels_max_count c in
      if start =? ch' then 0 else p_next_loop n' c start ch'
  end.

Lemma get_next_loop_ok n : forall start ch c h s, s_ch s = c -> chans_ok c ->
  0 < uw_channels_max_count c ->
  0 <= start < uw_channels_max_count c -> 0 <= ch < uw_channels_max_count c ->
  (Z.to_nat ((start - ch - 1) mod uw_channels_max_count c) < n)%nat ->
  (* everything from [start] up to [ch] was found disabled *)
  (forall j, 0 <= j < uw_channels_max_count c ->
     (j - start) mod uw_channels_max_count c < (ch - start) mod uw_channels_max_count c ->
     cbit c j = false) ->
  get_next_loop n start ch h s = Ok (p_next_loop n c start ch, s, []) /\
  let f := p_next_loop n c start ch in
    ((exists i, 0 <= i < 16 /\ cbit c i = true /\ f = cfreq c i /\
        forall j, 0 <= j < uw_channels_max_count c ->
          (j - start) mod uw_channels_max_count c < (i - start) mod uw_channels_max_count c ->
          cbit c j = false) \/
     (f = 0 /\ forall i, 0 <= i < 16 -> cbit c i = false)).
Proof.
  induction n; intros start ch c h s Hc Hok Hpos Hst Hch Hn Hdone; [lia|].
  pose proof Hok as [K1 K2 K3 K4 K5 K6]. set (mx := uw_channels_max_count c) in *.
  cbn [get_next_loop p_next_loop].
  rewrite (bind_ok0 _ _ _ _ _ _ (bit_is_set_ok c K1 ch h s Hc ltac:(lia))).
  destruct (cbit c ch) eqn:Eb.
  - split.
    + unfold get_ch. rewrite bind_gets. rewrite Hc.
      apply arr_get_ok. unfold len. lia.
    + left. exists ch. repeat split; try lia; auto.
  - unfold get_ch at 1. rewrite bind_gets, Hc. fold mx.
    destruct (Z.eqb_spec mx 0); [lia|].
    assert (Hm := Z.mod_pos_bound (ch + 1) mx ltac:(lia)).
    rewrite u8_id by lia. fold mx.
    set (ch' := (ch + 1) mod mx) in *.
    assert (Hch' : ch' = if ch + 1 =? mx then 0 else ch + 1).
    { unfold ch'. destruct (Z.eqb_spec (ch + 1) mx) as [->|]; [apply Z.mod_same; lia|].
      apply Z.mod_small. lia. }
    assert (Hmod : forall a b, 0 <= a < mx -> 0 <= b < mx ->
                   (a - b) mod mx = if b <=? a then a - b else a - b + mx).
    { intros a b Ha Hb. destruct (Z.leb_spec b a).
      - apply Z.mod_small. lia.
      - rewrite <- (Z.mod_add (a - b) 1 mx) by lia. rewrite Z.mod_small; lia. }
    destruct (Z.eqb_spec start ch') as [Hs|Hs]; cbn [negb].
    + split; [reflexivity|]. right. split; [reflexivity|].
      intros i Hi. destruct (cbit c i) eqn:Ei; [|reflexivity].
      exfalso. destruct (K6 i Hi Ei) as [Hlt _]. fold mx in Hlt.
      assert (cbit c i = false); [|congruence].
      destruct (Z.eq_dec i ch) as [->|Hne]; [exact Eb|].
      apply Hdone; [lia|]. rewrite !Hmod by lia.
      destruct (Z.eqb_spec (ch + 1) mx); destruct (Z.leb_spec start i); destruct (Z.leb_spec start ch); lia.
    + apply IHn; try assumption; try lia.
      * assert (Hsm : (start - ch - 1) mod mx <> 0).
        { intro Hz. apply Hs. unfold ch'. apply Z.mod_divide in Hz; [|lia].
          destruct Hz as [q Hq]. replace (ch + 1) with (start + (- q) * mx) by lia.
          rewrite Z.mod_add by lia. symmetry. apply Z.mod_small. lia. }
        assert (Hx : (start - ch' - 1) mod mx = (start - ch - 1) mod mx - 1).
        { assert (H1 := Z.mod_pos_bound (start - ch - 1) mx ltac:(lia)).
          assert (H2 : (start - ch - 1) = mx * ((start - ch - 1) / mx) + (start - ch - 1) mod mx)
            by (apply Z.div_mod; lia).
          assert (H3 : exists q, ch' = ch + 1 + q * mx).
          { rewrite Hch'. destruct (Z.eqb_spec (ch + 1) mx); [exists (-1)|exists 0]; lia. }
          destruct H3 as [q Hq]. rewrite Hq.
          replace (start - (ch + 1 + q * mx) - 1) with
            (((start - ch - 1) mod mx - 1) + ((start - ch - 1) / mx - q) * mx)
            by (rewrite Z.mul_sub_distr_r; lia).
          rewrite Z.mod_add by lia. apply Z.mod_small. lia. }
        fold mx. rewrite Hx. clear Hx Hmod Hdone IHn Hm.
        pose proof (Z.mod_pos_bound (start - ch - 1) mx ltac:(lia)).
        generalize dependent ((start - ch - 1) mod mx). intros. lia.
      * fold mx. intros j Hj. rewrite !Hmod by lia. intro Hlt.
        destruct (Z.eq_dec j ch) as [->|Hne]; [exact Eb|].
        apply Hdone; [assumption|]. rewrite !Hmod by lia.
        rewrite Hch' in *.
        destruct (Z.eqb_spec (ch + 1) mx); destruct (Z.leb_spec start j); destruct (Z.leb_spec start ch);
          repeat match goal with H : context [if ?b then _ else _] |- _ => destruct b eqn:?; try lia end; try lia.
Qed.

Definition p_next (c : chans) (draw : Z) : Z :=
  if uw_channels_max_count c =? 0 then 0 else
  let start := u32 draw mod uw_channels_max_count c in p_next_loop 256 c start start.

Lemma p_next_spec E c h s : env_ok E -> s_ch s = c -> chans_ok c ->
  channels_get_next E h s =
    Ok (p_next c (e_rand E h), s,
        if uw_channels_max_count c =? 0 then [] else [LRand (e_rand E h)]).
Proof.
  intros HE <- Hok. pose proof Hok as [K1 K2 K3 K4 K5 K6].
  unfold channels_get_next, get_ch, p_next. rewrite bind_gets.
  destruct (Z.eqb_spec (uw_channels_max_count (s_ch s)) 0) as [Hz|Hz]; [reflexivity|].
  unfold utils_get_random.
  set (mx := uw_channels_max_count (s_ch s)) in *.
  rewrite bind_bind, bind_query. destruct (Z.eqb_spec mx 0); [lia|].
  rewrite bind_ret.
  assert (Hm := Z.mod_pos_bound (u32 (e_rand E h)) mx ltac:(lia)).
  rewrite u8_id by lia.
  set (start := u32 (e_rand E h) mod mx) in *.
  destruct (get_next_loop_ok 256 start start (s_ch s) (h ++ [LRand (e_rand E h)]) s)
    as [Hl _]; try assumption; try reflexivity.
  - lia.
  - fold mx. pose proof (Z.mod_pos_bound (start - start - 1) mx ltac:(lia)).
    generalize dependent ((start - start - 1) mod mx). intros. lia.
  - intros j Hj. rewrite Z.sub_diag, Z.mod_0_l by (fold mx; lia).
    pose proof (Z.mod_pos_bound (j - start) (uw_channels_max_count (s_ch s))). lia.
  - rewrite Hl. reflexivity.
Qed.

(** outcome of the selection for a given draw *)
Lemma p_next_cases c draw : chans_ok c ->
  (exists i, 0 <= i < 16 /\ cbit c i = true /\ p_next c draw = cfreq c i /\
     860000000 <= p_next c draw <= 870000000) \/
  (p_next c draw = 0 /\ forall i, 0 <= i < 16 -> cbit c i = false).
Proof.
  intro Hok. pose proof Hok as [K1 K2 K3 K4 K5 K6]. unfold p_next.
  destruct (Z.eqb_spec (uw_channels_max_count c) 0) as [Hz|Hz].
  - right. split; [reflexivity|]. intros i Hi. destruct (cbit c i) eqn:E; [|reflexivity].
    destruct (K6 i Hi E). lia.
  - set (mx := uw_channels_max_count c) in *.
    assert (Hm := Z.mod_pos_bound (u32 draw) mx ltac:(lia)).
    set (start := u32 draw mod mx) in *.
    destruct (get_next_loop_ok 256 start start c [] (with_ch c power_on)) as [_ Hf];
      try assumption; try reflexivity; try (fold mx; lia).
    + fold mx. pose proof (Z.mod_pos_bound (start - start - 1) mx ltac:(lia)).
      generalize dependent ((start - start - 1) mod mx). intros. lia.
    + intros j Hj. rewrite Z.sub_diag, Z.mod_0_l by (fold mx; lia).
      pose proof (Z.mod_pos_bound (j - start) (uw_channels_max_count c)). lia.
    + cbv zeta in Hf. destruct Hf as [(i & Hi & Hb & He & _)|[H1 H2]].
      * left. exists i. rewrite He. destruct (K6 i Hi Hb). destruct (K5 i Hi); [lia|]. auto.
      * right. auto.
Qed.

(** each enabled channel is selected by some draw *)
Lemma p_next_draw c i : chans_ok c -> 0 <= i < 16 -> cbit c i = true -> p_next c i = cfreq c i.
Proof.
  intros Hok Hi Hb. pose proof Hok as [K1 K2 K3 K4 K5 K6]. destruct (K6 i Hi Hb) as [Hlt _].
  unfold p_next. destruct (Z.eqb_spec (uw_channels_max_count c) 0); [lia|].
  rewrite u32_id, Z.mod_small by lia. cbn [p_next_loop]. rewrite Hb. reflexivity.
Qed.

(** channels_enable_all *)
Fixpoint p_enable_all (n : nat) (i : Z) (c : chans) : chans :=
  match n with
  | O => c
  | S n' => p_enable_all n' (i + 1) (if cfreq c i =? 0 then c else p_enable i c)
  end.

Lemma enable_all_loop_ok n : forall i c h s, s_ch s = c -> chans_ok c ->
  0 <= i -> i + Z.of_nat n <= 16 ->
  channels_enable_all_loop n i h s = Ok (tt, with_ch (p_enable_all n i c) s, []) /\
  chans_ok (p_enable_all n i c) /\
  uw_channels (p_enable_all n i c) = uw_channels c /\
  (forall j, 0 <= j < 16 -> cbit (p_enable_all n i c) j =
     cbit c j || ((i <=? j) && (j <? i + Z.of_nat n) && negb (cfreq c j =? 0))).
Proof.
  induction n; intros i c h s Hc Hok Hi Hn.
  - cbn [channels_enable_all_loop p_enable_all]. split; [|split; [exact Hok|split; [reflexivity|]]].
    + subst c. rewrite with_ch_self. reflexivity.
    + intros j Hj. replace ((i <=? j) && (j <? i + Z.of_nat 0)) with false by lia.
      cbn. rewrite orb_false_r. reflexivity.
  - pose proof Hok as [K1 K2 K3 K4 K5 K6].
    cbn [channels_enable_all_loop p_enable_all].
    unfold get_ch at 1. rewrite bind_gets, Hc.
    erewrite bind_ok0; [|apply arr_get_ok; unfold len; lia].
    fold (cfreq c i). destruct (Z.eqb_spec (cfreq c i) 0) as [Hz|Hz]; cbn [negb].
    + rewrite bind_ret. destruct (IHn (i + 1) c h s) as (I1 & I2 & I3 & I4); try assumption; try lia.
      split; [exact I1|]. split; [exact I2|]. split; [exact I3|].
      intros j Hj. rewrite I4 by assumption. f_equal.
      destruct (Z.eq_dec j i) as [->|Hne]; [rewrite Hz; cbn [Z.eqb negb]; lia|].
      f_equal. lia.
    + destruct (p_enable_spec i c Hok ltac:(lia) Hz) as (P1 & P2 & P3 & _).
      rewrite bind_bind. unfold get_ch at 1. rewrite bind_gets, bind_bind. unfold mod_ch at 1. rewrite bind_modify.
      erewrite bind_ok0; [|eapply bit_set_ok; [|reflexivity|lia]; cbn; subst c; exact K1].
      set (s1 := with_ch _ _).
      assert (Hs1 : s1 = with_ch (p_enable i c) s) by (subst c; reflexivity).
      rewrite Hs1. clear s1 Hs1.
      destruct (IHn (i + 1) (p_enable i c) h (with_ch (p_enable i c) s)) as (I1 & I2 & I3 & I4);
        try assumption; try reflexivity; try lia.
      split; [exact I1|]. split; [exact I2|]. split; [rewrite I3; exact P3|].
      intros j Hj. rewrite I4, P2 by assumption.
      replace (cfreq (p_enable i c) j) with (cfreq c j) by (unfold cfreq; rewrite P3; reflexivity).
      destruct (Z.eqb_spec j i) as [->|Hne].
      * rewrite (proj2 (Z.eqb_neq _ _) Hz).
        replace ((i <=? i) && (i <? i + Z.of_nat (S n))) with true by lia.
        cbn. rewrite orb_true_r. reflexivity.
      * cbn [orb]. f_equal. f_equal. lia.
Qed.

(** the 16-bit mask loop *)
Definition mask_ok (ch_mask : Z) (c : chans) : Prop :=
  forall j, 0 <= j < 16 -> Z.testbit ch_mask j = true -> cfreq c j <> 0.

Lemma channel_is_exist_ok i c h s : s_ch s = c -> chans_ok c -> 0 <= i ->
  channel_is_exist i h s = Ok (if 16 <=? i then false else negb (cfreq c i =? 0), s, []).
Proof.
  intros <- Hok Hi. unfold channel_is_exist, MAX_CHANNELS.
  destruct (Z.leb_spec 16 i); [reflexivity|].
  unfold get_ch. rewrite bind_gets.
  erewrite bind_ok0; [|apply arr_get_ok; unfold len; rewrite (ck_chans _ Hok); lia].
  reflexivity.
Qed.

Fixpoint p_mask_dry (n : nat) (i m : Z) (c : chans) : bool :=
  match n with
  | O => true
  | S n' => if Z.testbit m i && (cfreq c i =? 0) then false else p_mask_dry n' (i + 1) m c
  end.
Fixpoint p_mask_apply (n : nat) (i m : Z) (c : chans) : chans :=
  match n with
  | O => c
  | S n' => p_mask_apply n' (i + 1) m (snd (r_enable i (Z.testbit m i) c))
  end.

Lemma mask_dry_ok n : forall i m c h s, s_ch s = c -> chans_ok c -> 0 <= i -> i + Z.of_nat n <= 16 ->
  ch_mask_loop n i m true h s = Ok (p_mask_dry n i m c, s, []).
Proof.
  induction n; intros i m c h s Hc Hok Hi Hn; [reflexivity|].
  cbn [ch_mask_loop p_mask_dry]. rewrite land_bit by lia.
  destruct (Z.testbit m i); cbn [andb].
  - erewrite bind_ok0; [|eapply channel_is_exist_ok; eassumption].
    destruct (Z.leb_spec 16 i); [lia|]. rewrite negb_involutive.
    destruct (cfreq c i =? 0); [reflexivity|]. apply IHn; try assumption; lia.
  - apply IHn; try assumption; lia.
Qed.

Lemma mask_dry_spec n : forall i m c, 0 <= i -> i + Z.of_nat n <= 16 ->
  (p_mask_dry n i m c = true <->
   forall j, i <= j < i + Z.of_nat n -> Z.testbit m j = true -> cfreq c j <> 0).
Proof.
  induction n; intros i m c Hi Hn; cbn [p_mask_dry].
  - split; [intros _ j Hj; lia|reflexivity].
  - destruct (Z.testbit m i && (cfreq c i =? 0)) eqn:E.
    + split; [discriminate|]. intro H. exfalso.
      apply andb_prop in E as [E1 E2]. apply (H i); [lia|exact E1|]. apply Z.eqb_eq. exact E2.
    + rewrite IHn by lia. split; intros H j Hj Hb.
      * destruct (Z.eq_dec j i) as [->|]; [|apply H; [lia|assumption]].
        rewrite Hb in E. cbn in E. apply Z.eqb_neq. exact E.
      * apply H; [lia|assumption].
Qed.

Lemma mask_apply_ok n : forall i m c h s, s_ch s = c -> chans_ok c -> 0 <= i -> i + Z.of_nat n <= 16 ->
  ch_mask_loop n i m false h s = Ok (true, with_ch (p_mask_apply n i m c) s, []).
Proof.
  induction n; intros i m c h s Hc Hok Hi Hn.
  - cbn. subst c. rewrite with_ch_self. reflexivity.
  - cbn [ch_mask_loop p_mask_apply]. rewrite land_bit by lia.
    erewrite bind_ok0; [|eapply uwan_enable_channel_ok; [exact Hc|exact Hok|lia]].
    erewrite IHn; [reflexivity|reflexivity|apply r_enable_ok; [exact Hok|lia]|lia|lia].
Qed.

Lemma mask_apply_spec n : forall i m c, chans_ok c -> 0 <= i -> i + Z.of_nat n <= 16 ->
  chans_ok (p_mask_apply n i m c) /\ uw_channels (p_mask_apply n i m c) = uw_channels c /\
  (forall j, 0 <= j < 16 ->
     cbit (p_mask_apply n i m c) j =
     if (i <=? j) && (j <? i + Z.of_nat n)
     then (if Z.testbit m j then negb (cfreq c j =? 0) || cbit c j else false) else cbit c j).
Proof.
  induction n; intros i m c Hok Hi Hn.
  - cbn [p_mask_apply]. split; [exact Hok|]. split; [reflexivity|]. intros j Hj.
    replace ((i <=? j) && (j <? i + Z.of_nat 0)) with false by lia. reflexivity.
  - cbn [p_mask_apply]. set (c1 := snd (r_enable i (Z.testbit m i) c)).
    assert (Hok1 : chans_ok c1) by (apply r_enable_ok; [exact Hok|lia]).
    assert (H1 : uw_channels c1 = uw_channels c /\
      forall j, 0 <= j < 16 -> cbit c1 j = if j =? i then
        (if Z.testbit m i then negb (cfreq c i =? 0) || cbit c i else false) else cbit c j).
    { unfold c1, r_enable. destruct (Z.leb_spec 16 i); [lia|]. destruct (Z.testbit m i).
      - destruct (Z.eqb_spec (cfreq c i) 0) as [Hz|Hz].
        + split; [reflexivity|]. intros j Hj. destruct (Z.eqb_spec j i) as [->|]; reflexivity.
        + destruct (p_enable_spec i c Hok ltac:(lia) Hz) as (P1 & P2 & P3 & _).
          split; [exact P3|]. intros j Hj. cbn [snd]. rewrite P2 by assumption.
          destruct (Z.eqb_spec j i) as [->|]; reflexivity.
      - destruct (p_disable_spec i c Hok ltac:(lia)) as (P1 & P2 & P3).
        split; [exact P3|]. intros j Hj. cbn [snd]. rewrite P2 by assumption.
        destruct (Z.eqb_spec j i) as [->|]; reflexivity. }
    destruct H1 as [Hf Hb].
    destruct (IHn (i + 1) m c1) as (I1 & I2 & I3); [exact Hok1|lia|lia|].
    split; [exact I1|]. split; [rewrite I2; exact Hf|].
    intros j Hj. rewrite I3 by assumption.
    replace (cfreq c1 j) with (cfreq c j) by (unfold cfreq; rewrite Hf; reflexivity).
    rewrite Hb by assumption.
    destruct (Z.eqb_spec j i) as [->|Hne].
    + replace ((i + 1 <=? i) && (i <? i + 1 + Z.of_nat n)) with false by lia.
      replace ((i <=? i) && (i <? i + Z.of_nat (S n))) with true by lia. reflexivity.
    + replace ((i + 1 <=? j) && (j <? i + 1 + Z.of_nat n))
        with ((i <=? j) && (j <? i + Z.of_nat (S n))) by lia.
      reflexivity.
Qed.

Lemma testbit16_false m j : 0 <= m < 65536 -> 16 <= j -> Z.testbit m j = false.
Proof. intros. apply (testbit_small m 16); assumption. Qed.

(** region_86x_handle_adr_ch_mask *)
Definition p_mask_ok (ch_mask cntl : Z) (c : chans) : bool :=
  if cntl =? 0 then p_mask_dry 16 0 ch_mask c else cntl =? 6.
Definition p_mask (ch_mask cntl : Z) (c : chans) : chans :=
  if cntl =? 0 then p_mask_apply 16 0 ch_mask c
  else if cntl =? 6 then p_enable_all 16 0 c else c.

Lemma region_mask_dry_ok r m cntl c h s : s_ch s = c -> chans_ok c ->
  region_handle_adr_ch_mask r m cntl true h s = Ok (p_mask_ok m cntl c, s, []).
Proof.
  intros Hc Hok. unfold region_handle_adr_ch_mask, region_86x_handle_adr_ch_mask, p_mask_ok.
  destruct (cntl =? 0). { apply mask_dry_ok; try assumption; lia. }
  destruct (cntl =? 6); reflexivity.
Qed.

Lemma region_mask_apply_ok r m cntl c h s : s_ch s = c -> chans_ok c ->
  region_handle_adr_ch_mask r m cntl false h s =
    Ok ((cntl =? 0) || (cntl =? 6), with_ch (p_mask m cntl c) s, []).
Proof.
  intros Hc Hok. unfold region_handle_adr_ch_mask, region_86x_handle_adr_ch_mask, p_mask.
  destruct (cntl =? 0). { apply mask_apply_ok; try assumption; lia. }
  destruct (cntl =? 6).
  - destruct (enable_all_loop_ok 16 0 c h s Hc Hok) as [H1 _]; [lia|lia|].
    cbn [negb]. unfold channels_enable_all. erewrite bind_ok0; [|exact H1]. reflexivity.
  - subst c. rewrite with_ch_self. reflexivity.
Qed.

Lemma p_mask_chans_ok m cntl c : chans_ok c -> chans_ok (p_mask m cntl c).
Proof.
  intro Hok. unfold p_mask. destruct (cntl =? 0).
  - apply mask_apply_spec; [exact Hok|lia|lia].
  - destruct (cntl =? 6); [|exact Hok].
    destruct (enable_all_loop_ok 16 0 c [] (with_ch c power_on) eq_refl Hok) as (_ & H & _); [lia|lia|].
    exact H.
Qed.
Lemma p_mask_freq m cntl c : chans_ok c -> uw_channels (p_mask m cntl c) = uw_channels c.
Proof.
  intro Hok. unfold p_mask. destruct (cntl =? 0).
  - apply mask_apply_spec; [exact Hok|lia|lia].
  - destruct (cntl =? 6); [|reflexivity].
    destruct (enable_all_loop_ok 16 0 c [] (with_ch c power_on) eq_refl Hok) as (_ & _ & H & _); [lia|lia|].
    exact H.
Qed.

(** 24-bit little-endian fields *)
Lemma le24 a b c : is_byte a -> is_byte b -> is_byte c ->
  Z.lor (Z.lor a (Z.shiftl b 8)) (Z.shiftl c 16) = a + 256 * b + 65536 * c.
Proof.
  unfold is_byte. intros. rewrite (lor_shiftl_add a b 8) by lia.
  rewrite (lor_shiftl_add _ c 16) by lia. lia.
Qed.
Lemma le16 a b : is_byte a -> is_byte b -> Z.lor a (Z.shiftl b 8) = a + 256 * b.
Proof. unfold is_byte. intros. rewrite (lor_shiftl_add a b 8) by lia. lia. Qed.
Lemma le32 a b c d : is_byte a -> is_byte b -> is_byte c -> is_byte d ->
  Z.lor (Z.lor (Z.lor a (Z.shiftl b 8)) (Z.shiftl c 16)) (Z.shiftl d 24) =
  a + 256 * b + 65536 * c + 16777216 * d.
Proof.
  intros. rewrite le24 by assumption. unfold is_byte in *.
  rewrite (lor_shiftl_add _ d 24) by lia. lia.
Qed.

(** CFList *)
Definition cf_freq (fl : list Z) (k : Z) : Z :=
  get fl (3 * k) + 256 * get fl (3 * k + 1) + 65536 * get fl (3 * k + 2).
Definition p_cf1 (i f : Z) (c : chans) : chans :=
  if f =? 0 then snd (r_enable i false c) else snd (r_set i (u32 (f * 100)) c).
Fixpoint p_cflist (n : nat) (k first : Z) (fl : list Z) (c : chans) : chans :=
  match n with
  | O => c
  | S n' => p_cflist n' (k + 1) first fl (p_cf1 (k + first) (cf_freq fl k) c)
  end.

Lemma p_cf1_ok i f c : chans_ok c -> 0 <= i -> chans_ok (p_cf1 i f c).
Proof.
  intros. unfold p_cf1. destruct (f =? 0); [apply r_enable_ok|apply r_set_ok]; assumption.
Qed.

Lemma cflist_loop_ok n : forall k first fl c h s, s_ch s = c -> chans_ok c ->
  bytes_ok fl -> 0 <= k -> 0 <= first -> k + first + Z.of_nat n <= 16 ->
  3 * (k + Z.of_nat n) <= len fl ->
  cflist_loop n k first fl (3 * k) h s = Ok (tt, with_ch (p_cflist n k first fl c) s, []) /\
  chans_ok (p_cflist n k first fl c).
Proof.
  induction n; intros k first fl c h s Hc Hok Hfl Hk Hfirst Hn Hlen.
  - cbn. split; [|exact Hok]. subst c. rewrite with_ch_self. reflexivity.
  - cbn [cflist_loop p_cflist].
    erewrite bind_ok0; [|apply arr_get_ok; lia].
    erewrite bind_ok0; [|apply arr_get_ok; lia].
    erewrite bind_ok0; [|apply arr_get_ok; lia].
    cbv zeta. replace (3 * k + 0) with (3 * k) by lia.
    rewrite le24 by (apply bytes_get; exact Hfl).
    fold (cf_freq fl k). rewrite (u8_id (k + first)) by lia.
    assert (Hstep : (if cf_freq fl k =? 0 then uwan_enable_channel (k + first) false
                     else uwan_set_channel (k + first) (u32 (cf_freq fl k * 100))) h s =
                    Ok (fst (if cf_freq fl k =? 0 then r_enable (k + first) false c
                             else r_set (k + first) (u32 (cf_freq fl k * 100)) c),
                        with_ch (p_cf1 (k + first) (cf_freq fl k) c) s, [])).
    { unfold p_cf1. destruct (cf_freq fl k =? 0).
      - apply uwan_enable_channel_ok; [exact Hc|exact Hok|lia].
      - apply uwan_set_channel_ok; [exact Hc|exact Hok|lia]. }
    erewrite bind_ok0; [|exact Hstep].
    replace (3 * k + 3) with (3 * (k + 1)) by lia.
    destruct (IHn (k + 1) first fl (p_cf1 (k + first) (cf_freq fl k) c) h
                (with_ch (p_cf1 (k + first) (cf_freq fl k) c) s)) as [I1 I2];
      try assumption; try reflexivity; try lia.
    { apply p_cf1_ok; [exact Hok|lia]. }
    split; [exact I1|exact I2].
Qed.

Definition region_first (r : region) : Z := match r with EU868 => 3 | RU864 => 2 end.
Definition p_cf (r : region) (fl : list Z) (c : chans) : chans :=
  if get fl 15 =? 0 then p_cflist 5 0 (region_first r) fl c else c.

Lemma region_handle_cflist_ok r fl c h s : s_ch s = c -> chans_ok c ->
  bytes_ok fl -> len fl = 16 ->
  region_handle_cflist r fl h s = Ok (tt, with_ch (p_cf r fl c) s, []) /\ chans_ok (p_cf r fl c).
Proof.
  intros Hc Hok Hfl Hlen.
  assert (H : region_86x_handle_cflist fl (region_first r) h s =
     Ok (tt, with_ch (p_cf r fl c) s, []) /\ chans_ok (p_cf r fl c)).
  { unfold region_86x_handle_cflist, LORAWAN_CFLIST_SIZE, p_cf.
    erewrite bind_ok0; [|apply arr_get_ok; lia].
    change (16 - 1) with 15. destruct (get fl 15 =? 0); cbn [negb].
    - apply (cflist_loop_ok 5 0); try assumption; try lia; destruct r; cbn; lia.
    - split; [|exact Hok]. subst c. rewrite with_ch_self. reflexivity. }
  destruct r; exact H.
Qed.

(** effect of one CFList entry, and of the whole list, as a map *)
Lemma p_cf1_spec i f c : chans_ok c -> 0 <= i < 16 -> 0 <= f < 16777216 ->
  (forall j, 0 <= j < 16 -> cbit (p_cf1 i f c) j =
     if j =? i then
       if f =? 0 then false else is_valid_frequency (f * 100) || cbit c j
     else cbit c j) /\
  (forall j, 0 <= j < 16 -> cfreq (p_cf1 i f c) j =
     if (j =? i) && is_valid_frequency (f * 100) then f * 100 else cfreq c j).
Proof.
  intros Hok Hi Hf. unfold p_cf1, r_enable, r_set. destruct (Z.leb_spec 16 i); [lia|].
  rewrite (u32_id (f * 100)) by lia.
  destruct (Z.eqb_spec f 0) as [->|Hz].
  - destruct (p_disable_spec i c Hok Hi) as (_ & P2 & P3).
    split; intros j Hj.
    + cbn [snd]. rewrite P2 by assumption. destruct (j =? i); reflexivity.
    + cbn [snd]. replace (is_valid_frequency (0 * 100)) with false by reflexivity.
      rewrite andb_false_r. unfold cfreq. rewrite P3. reflexivity.
  - destruct (is_valid_frequency (f * 100)) eqn:Ev; cbn [negb snd].
    + apply is_valid_frequency_spec in Ev.
      destruct (p_set_spec i (f * 100) c Hok Hi Ev) as (_ & P2 & P3).
      split; intros j Hj.
      * rewrite P2 by assumption. destruct (j =? i); reflexivity.
      * rewrite P3 by assumption. rewrite andb_true_r. reflexivity.
    + split; intros j Hj.
      * destruct (j =? i); reflexivity.
      * rewrite andb_false_r. reflexivity.
Qed.

Lemma cf_freq_range fl k : bytes_ok fl -> 0 <= cf_freq fl k < 16777216.
Proof.
  intro H. unfold cf_freq.
  pose proof (bytes_get fl (3 * k) H). pose proof (bytes_get fl (3 * k + 1) H).
  pose proof (bytes_get fl (3 * k + 2) H). unfold is_byte in *. lia.
Qed.

Lemma p_cflist_spec n : forall k first fl c, chans_ok c -> bytes_ok fl ->
  0 <= k -> 0 <= first -> k + first + Z.of_nat n <= 16 ->
  (forall j, 0 <= j < 16 -> cbit (p_cflist n k first fl c) j =
     if (k + first <=? j) && (j <? k + first + Z.of_nat n) then
       if cf_freq fl (j - first) =? 0 then false
       else is_valid_frequency (cf_freq fl (j - first) * 100) || cbit c j
     else cbit c j) /\
  (forall j, 0 <= j < 16 -> cfreq (p_cflist n k first fl c) j =
     if (k + first <=? j) && (j <? k + first + Z.of_nat n)
        && is_valid_frequency (cf_freq fl (j - first) * 100)
     then cf_freq fl (j - first) * 100 else cfreq c j).
Proof.
  induction n; intros k first fl c Hok Hfl Hk Hfirst Hn; cbn [p_cflist].
  - split; intros j Hj;
      replace ((k + first <=? j) && (j <? k + first + Z.of_nat 0)) with false by lia; reflexivity.
  - set (c1 := p_cf1 (k + first) (cf_freq fl k) c).
    destruct (p_cf1_spec (k + first) (cf_freq fl k) c Hok ltac:(lia) (cf_freq_range _ _ Hfl)) as [A1 A2].
    fold c1 in A1, A2.
    destruct (IHn (k + 1) first fl c1) as [I1 I2]; try assumption; try lia.
    { apply p_cf1_ok; [exact Hok|lia]. }
    split; intros j Hj.
    + rewrite I1, A1 by assumption. destruct (Z.eqb_spec j (k + first)) as [->|Hne].
      * replace ((k + 1 + first <=? k + first) && (k + first <? k + 1 + first + Z.of_nat n))
          with false by lia.
        replace ((k + first <=? k + first) && (k + first <? k + first + Z.of_nat (S n)))
          with true by lia.
        replace (k + first - first) with k by lia. reflexivity.
      * replace ((k + 1 + first <=? j) && (j <? k + 1 + first + Z.of_nat n))
          with ((k + first <=? j) && (j <? k + first + Z.of_nat (S n))) by lia.
        reflexivity.
    + rewrite I2, A2 by assumption. destruct (Z.eqb_spec j (k + first)) as [->|Hne].
      * replace ((k + 1 + first <=? k + first) && (k + first <? k + 1 + first + Z.of_nat n))
          with false by lia.
        replace ((k + first <=? k + first) && (k + first <? k + first + Z.of_nat (S n)))
          with true by lia.
        replace (k + first - first) with k by lia. reflexivity.
      * replace ((k + 1 + first <=? j) && (j <? k + 1 + first + Z.of_nat n))
          with ((k + first <=? j) && (j <? k + first + Z.of_nat (S n))) by lia.
        reflexivity.
Qed.
