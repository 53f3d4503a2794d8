(** LMac.v -- the MAC command loop refines the reference semantics of SpecMac
    (C16 - C20, C22). *)
From Verif Require Export LUp4 SpecMac.

(** ** The channel table *)
Definition tbl (c : chans) : list (Z * bool) :=
  map (fun i => (cfreq c (Z.of_nat i), cbit c (Z.of_nat i))) (seq 0 16).

Lemma chan_table_tbl s : chans_ok (s_ch s) -> chan_table s = tbl (s_ch s).
Proof.
  intro HC. assert (HI : Inv (with_ch (s_ch s) power_on)).
  { destruct power_on_Inv. constructor; assumption. }
  unfold chan_table, tbl. apply map_ext_in. intros i Hi. apply in_seq in Hi.
  pose proof (chan_on_cbit (Mk_world (with_ch (s_ch s) power_on) []) (Z.of_nat i) HI ltac:(lia)) as H. unfold chan_on in H.
  cbn [w_st] in H. change (s_ch (with_ch (s_ch s) power_on)) with (s_ch s) in H. rewrite H. unfold cfreq, get. rewrite Nat2Z.id. reflexivity.
Qed.
Lemma tbl_ext c c' : (forall i, 0 <= i < 16 -> cfreq c' i = cfreq c i /\ cbit c' i = cbit c i) -> tbl c' = tbl c.
Proof.
  intro H. apply map_ext_in. intros i Hi. apply in_seq in Hi.
  destruct (H (Z.of_nat i) ltac:(lia)) as [-> ->]. reflexivity.
Qed.

Lemma odd_bit m a : 0 <= a -> Z.odd (m / 2 ^ a) = Z.testbit m a.
Proof. intro H. rewrite <- Z.shiftr_div_pow2 by lia. symmetry. apply Z.testbit_odd. Qed.
Lemma half_bit m a : 0 <= a -> m / 2 ^ a / 2 = m / 2 ^ (a + 1).
Proof.
  intro H. rewrite Z.div_div by (try apply Z.pow_nonzero; lia). rewrite Z.pow_add_r, Z.pow_1_r by lia. reflexivity.
Qed.

Lemma mask_fits_dry n : forall a m c,
  mask_fits (m / 2 ^ Z.of_nat a) (map (fun i => (cfreq c (Z.of_nat i), cbit c (Z.of_nat i))) (seq a n)) =
  p_mask_dry n (Z.of_nat a) m c.
Proof.
  induction n; intros a m c; [reflexivity|].
  cbn [seq map mask_fits p_mask_dry fst snd]. rewrite odd_bit, half_bit by lia.
  replace (Z.of_nat a + 1) with (Z.of_nat (S a)) by lia. rewrite IHn.
  unfold defined. cbn [fst].
  destruct (Z.testbit m (Z.of_nat a)), (cfreq c (Z.of_nat a) =? 0); reflexivity.
Qed.
Lemma mask_apply_map n : forall a m (f : nat -> Z * bool),
  mask_apply (m / 2 ^ Z.of_nat a) (map f (seq a n)) =
  map (fun i => (fst (f i), Z.testbit m (Z.of_nat i))) (seq a n).
Proof.
  induction n; intros a m f; [reflexivity|].
  cbn [seq map mask_apply]. rewrite odd_bit, half_bit by lia.
  replace (Z.of_nat a + 1) with (Z.of_nat (S a)) by lia. rewrite IHn. reflexivity.
Qed.
Lemma tbl_fits m c : mask_fits m (tbl c) = p_mask_dry 16 0 m c.
Proof.
  replace m with (m / 2 ^ Z.of_nat 0) at 1 by (cbn; apply Z.div_1_r). apply mask_fits_dry.
Qed.
Lemma tbl_apply m c : chans_ok c -> p_mask_dry 16 0 m c = true ->
  mask_apply m (tbl c) = tbl (p_mask_apply 16 0 m c).
Proof.
  intros Hc Hd. replace m with (m / 2 ^ Z.of_nat 0) at 1 by (cbn; apply Z.div_1_r).
  unfold tbl. rewrite mask_apply_map. apply map_ext_in. intros i Hi. apply in_seq in Hi. cbn [fst].
  destruct (mask_apply_spec 16 0 m c Hc) as (_ & Hf & Hb); [lia|lia|].
  rewrite (Hb (Z.of_nat i)) by lia.
  replace ((0 <=? Z.of_nat i) && (Z.of_nat i <? 0 + Z.of_nat 16)) with true by lia.
  unfold cfreq at 2. rewrite Hf. f_equal.
  destruct (Z.testbit m (Z.of_nat i)) eqn:Et; [|reflexivity].
  pose proof (proj1 (mask_dry_spec 16 0 m c ltac:(lia) ltac:(lia)) Hd (Z.of_nat i) ltac:(lia) Et) as Hn.
  apply Z.eqb_neq in Hn. rewrite Hn. reflexivity.
Qed.
Lemma upd_map {A} (f : nat -> A) v k n : forall a,
  upd k v (map f (seq a n)) = map (fun i => if (i =? a + k)%nat then v else f i) (seq a n).
Proof.
  revert k. induction n; intros k a; [destruct k; reflexivity|]. cbn [seq map]. destruct k as [|k]; cbn [upd].
  - rewrite Nat.add_0_r, Nat.eqb_refl. f_equal. apply map_ext_in. intros i Hi. apply in_seq in Hi.
    destruct (Nat.eqb_spec i a); [lia|reflexivity].
  - rewrite IHn. destruct (Nat.eqb_spec a (a + S k)); [lia|]. f_equal. apply map_ext. intro i.
    replace (S a + k)%nat with (a + S k)%nat by lia. reflexivity.
Qed.
Lemma tbl_set i f c : chans_ok c -> 0 <= i < 16 -> 860000000 <= f <= 870000000 ->
  tbl (p_set i f c) = upd (Z.to_nat i) (f, true) (tbl c).
Proof.
  intros Hc Hi Hf. destruct (p_set_spec i f c Hc Hi Hf) as (_ & Hb & Hg).
  unfold tbl. rewrite upd_map. apply map_ext_in. intros j Hj. apply in_seq in Hj.
  rewrite Hb, Hg by lia. destruct (Nat.eqb_spec j (0 + Z.to_nat i)); destruct (Z.eqb_spec (Z.of_nat j) i);
    try lia; reflexivity.
Qed.

(** ** One command *)
Lemma bits3_adr p0 m cntl c :
  adr_status p0 m cntl c = bits3 (p0 mod 16 <? 8) (p0 / 16 <? 6) (p_mask_ok m cntl c).
Proof.
  unfold adr_status, bits3. destruct (p0 / 16 <? 6), (p_mask_ok m cntl c), (p0 mod 16 <? 8); reflexivity.
Qed.
Lemma bits3_rxp off dr f : rxp_status off dr f = bits3 (off <? 6) (dr <? 6) (legal_freq f).
Proof.
  unfold rxp_status, bits3. change (is_valid_frequency f) with (legal_freq f).
  destruct (off <? 6), (dr <? 6), (legal_freq f); reflexivity.
Qed.
Lemma bits3_7 a b c : (bits3 a b c =? 7) = a && b && c.
Proof. destruct a, b, c; reflexivity. Qed.

Lemma dev_enq cid data s : mac_ok (s_mac s) ->
  answer (cid :: data) (dev_of s) =
  (dev_of (with_mac (p_enq cid data (s_mac s)) s), p_fits data (s_mac s)).
Proof.
  intro HM. unfold answer.
  change (v_queue (dev_of s)) with (queue (s_mac s)). rewrite queue_len, len_cons by exact HM.
  assert (Hf : (mac_buf_pos (s_mac s) + (1 + len data) <=? 15) = p_fits data (s_mac s))
    by (unfold p_fits; rewrite Z.add_assoc; reflexivity).
  replace (mac_buf_pos (s_mac s) + (len data + 1)) with (mac_buf_pos (s_mac s) + (1 + len data)) by lia.
  rewrite Hf. pose proof (p_enq_queue cid data (s_mac s) HM) as Hq.
  destruct (p_fits data (s_mac s)) eqn:E.
  - f_equal. unfold dev_of. cbn [with_mac on_mac s_mac s_ses s_stk]. f_equal.
    symmetry. exact Hq.
  - unfold p_enq. rewrite E, with_mac_self. reflexivity.
Qed.

Lemma cntl_land q : 0 <= q < 16 -> (Z.land q 4 =? 0) = mask_mode (q mod 8) /\ (Z.land q 4 =? 6) = false.
Proof.
  intro H. assert (Hq : In q (map Z.of_nat (seq 0 16))).
  { apply in_map_iff. exists (Z.to_nat q). split; [lia|]. apply in_seq. lia. }
  revert q H Hq. assert (A : forallb (fun q => Bool.eqb (Z.land q 4 =? 0) (mask_mode (q mod 8)) && negb (Z.land q 4 =? 6))
    (map Z.of_nat (seq 0 16)) = true) by (vm_compute; reflexivity).
  rewrite forallb_forall in A. intros q _ Hq. specialize (A q Hq). apply andb_prop in A. destruct A as [A1 A2].
  split; [apply eqb_prop; exact A1|]. destruct (Z.land q 4 =? 6); [discriminate|reflexivity].
Qed.

Definition exec_of (r : hres) : dev * bool * list ev := let '(b, s1, e1) := r in (dev_of s1, b, e1).
Lemma exec_enq cid data s : mac_ok (s_mac s) -> exec_of (enq cid data s) = (answer (cid :: data) (dev_of s), []).
Proof. intro HI. rewrite dev_enq by exact HI. reflexivity. Qed.

Lemma exec_link_adr E h p m0 m1 red r s : Inv s -> bytes_ok (p :: m0 :: m1 :: red :: r) ->
  mac_exec (ctx_of E s) h (LinkADRReq (p / 16) (p mod 16) (unle [m0; m1]) (red / 16 mod 8) (red mod 16)) (dev_of s)
  = exec_of (ph_link_adr (p :: m0 :: m1 :: red :: r) s).
Proof.
  intros HI Hb.   pose proof (get_byte _ 3 Hb) as Hr. change (get (p :: m0 :: m1 :: red :: r) 3) with red in Hr.
  assert (Hq : 0 <= red / 16 < 16) by (split; [apply Z.div_pos; lia|apply Z.div_lt_upper_bound; lia]).
  destruct (cntl_land _ Hq) as [Hc0 Hc6].
  cbn [mac_exec]. unfold ph_link_adr.
  change (get (p :: m0 :: m1 :: red :: r) 0) with p. change (get (p :: m0 :: m1 :: red :: r) 1) with m0.
  change (get (p :: m0 :: m1 :: red :: r) 2) with m1. change (get (p :: m0 :: m1 :: red :: r) 3) with red.
  cbv zeta. replace (unle [m0; m1]) with (m0 + 256 * m1) by (cbn [unle]; lia).
  set (m := m0 + 256 * m1). rewrite bits3_adr.
  assert (Hok : p_mask_ok m (Z.land (red / 16) 4) (s_ch s) =
                mask_mode (red / 16 mod 8) && mask_fits m (v_table (dev_of s))).
  { unfold p_mask_ok. rewrite Hc0, Hc6. cbn [dev_of v_table]. rewrite chan_table_tbl, tbl_fits by exact (iv_ch _ HI).
    destruct (mask_mode _); reflexivity. }
  rewrite Hok. set (mo := mask_mode _ && _) in *. rewrite bits3_7.
  rewrite exec_enq.
  - f_equal. f_equal. destruct ((p mod 16 <? 8) && (p / 16 <? 6) && mo) eqn:Eb; [|reflexivity].
    apply andb_prop in Eb. destruct Eb as [_ Em]. unfold mo in Em. apply andb_prop in Em. destruct Em as [Em1 Em2].
    unfold dev_of. cbn [with_ch on_ch on_ses on_stk s_ses s_stk s_mac s_ch ses_dr set_ses_dr
      uw_tx_power set_uw_tx_power uw_nb_trans set_uw_nb_trans uw_rx1_offset uw_rx2_frequency uw_rx2_dr default_rx1_delay
      v_table v_rx1_off v_rx2_freq v_rx2_dr v_rx1_delay v_queue x_nb ctx_of].
    f_equal. unfold p_mask. rewrite Hc0, Em1.
    cbn [dev_of v_table] in Em2. rewrite chan_table_tbl, tbl_fits in Em2 by exact (iv_ch _ HI).
    rewrite (chan_table_tbl s) by exact (iv_ch _ HI). rewrite tbl_apply by (try exact (iv_ch _ HI); assumption).
    symmetry. apply (chan_table_tbl (with_ch _ _)). apply mask_apply_spec; [exact (iv_ch _ HI)|lia|lia].
  - destruct ((p mod 16 <? 8) && (p / 16 <? 6) && mo); exact (iv_mac _ HI).
Qed.

Lemma exec_rx_param E h p f0 f1 f2 r s : Inv s ->
  mac_exec (ctx_of E s) h (RXParamSetupReq (p / 16 mod 8) (p mod 16) (100 * unle [f0; f1; f2])) (dev_of s)
  = exec_of (ph_rx_param (p :: f0 :: f1 :: f2 :: r) s).
Proof.
  intros HI. cbn [mac_exec]. unfold ph_rx_param.
  change (get (p :: f0 :: f1 :: f2 :: r) 0) with p.
  replace (b24 (p :: f0 :: f1 :: f2 :: r) 1 * 100) with (100 * unle [f0; f1; f2])
    by (change (b24 (p :: f0 :: f1 :: f2 :: r) 1) with (f0 + 256 * f1 + 65536 * f2); cbn [unle]; lia).
  cbv zeta. rewrite bits3_rxp, bits3_7. set (ok := _ && _ && _).
  rewrite exec_enq by (destruct ok; exact (iv_mac _ HI)).
  f_equal. f_equal. destruct ok; reflexivity.
Qed.

Lemma exec_dev_status E h pld s : Inv s ->
  mac_exec (ctx_of E s) h DevStatusReq (dev_of s) = exec_of (ph_dev_status E h pld s).
Proof.
  intros HI. cbn [mac_exec ctx_of x_cbs x_battery x_snr]. unfold ph_dev_status, enq. cbn [exec_of].
  destruct (mac_cbs (s_mac s)) as [c|]; [destruct (has_get_battery_level c)|];
    rewrite dev_enq by exact (iv_mac _ HI); reflexivity.
Qed.

Lemma exec_new_channel E h i f0 f1 f2 d r s : Inv s -> bytes_ok (i :: f0 :: f1 :: f2 :: d :: r) ->
  mac_exec (ctx_of E s) h (NewChannelReq i (100 * unle [f0; f1; f2]) d) (dev_of s)
  = exec_of (ph_new_channel (i :: f0 :: f1 :: f2 :: d :: r) s).
Proof.
  intros HI Hb. pose proof (get_byte _ 0 Hb) as Hi. change (get (i :: f0 :: f1 :: f2 :: d :: r) 0) with i in Hi.
  cbn [mac_exec]. unfold ph_new_channel.
  change (get (i :: f0 :: f1 :: f2 :: d :: r) 0) with i. change (get (i :: f0 :: f1 :: f2 :: d :: r) 4) with d.
  replace (b24 (i :: f0 :: f1 :: f2 :: d :: r) 1 * 100) with (100 * unle [f0; f1; f2])
    by (change (b24 (i :: f0 :: f1 :: f2 :: d :: r) 1) with (f0 + 256 * f1 + 65536 * f2); cbn [unle]; lia).
  cbv zeta. set (f := 100 * unle _). change (is_valid_frequency f) with (legal_freq f).
  destruct (legal_freq f) eqn:Ef; destruct (d =? 80); cbn [andb];
    change ((1 + 2 =? 3)) with true; change ((1 + 0 =? 3)) with false;
    change ((0 + 2 =? 3)) with false; change ((0 + 0 =? 3)) with false; cbv iota;
    [destruct (Z.ltb_spec i 16); cbn [negb]|..].
  1:{ change (3 =? 3) with true. cbv iota. rewrite exec_enq by exact (iv_mac _ HI). f_equal. f_equal.
      unfold dev_of. f_equal.
      apply is_valid_frequency_spec in Ef. cbn [v_table].
      rewrite !chan_table_tbl by (first [exact (iv_ch _ HI)|apply p_set_spec; [exact (iv_ch _ HI)|lia|exact Ef]]).
      symmetry. apply tbl_set; [exact (iv_ch _ HI)|lia|exact Ef]. }
  all: match goal with |- context [?a =? 3] => change (a =? 3) with false end; cbv iota;
    rewrite exec_enq by exact (iv_mac _ HI); reflexivity.
Qed.

Lemma exec_rx_timing E h d r s : Inv s -> is_byte d ->
  mac_exec (ctx_of E s) h (RXTimingSetupReq (d mod 16)) (dev_of s) = exec_of (ph_rx_timing (d :: r) s).
Proof.
  intros HI Hd. cbn [mac_exec]. unfold ph_rx_timing. change (get (d :: r) 0) with d. cbv zeta.
  rewrite exec_enq by exact (iv_mac _ HI). f_equal. f_equal. unfold dev_of. f_equal.
  cbn [on_stk s_stk default_rx1_delay set_default_rx1_delay].
  pose proof (Z.mod_pos_bound d 16 ltac:(lia)). destruct (Z.eqb_spec (d mod 16) 0); lia.
Qed.

Lemma exec_device_time E h s0 s1 s2 s3 f r s : Inv s -> bytes_ok (s0 :: s1 :: s2 :: s3 :: f :: r) ->
  mac_exec (ctx_of E s) h (DeviceTimeAns (unle [s0; s1; s2; s3]) f) (dev_of s)
  = exec_of (ph_device_time (s0 :: s1 :: s2 :: s3 :: f :: r) s).
Proof.
  intros HI Hb. cbn [mac_exec ctx_of x_cbs x_time]. unfold ph_device_time. cbn [exec_of].
  change (get (s0 :: s1 :: s2 :: s3 :: f :: r) 4) with f.
  destruct (mac_cbs (s_mac s)) as [c|]; [|reflexivity]. destruct (has_device_time_result c); [|reflexivity].
  replace (unle [s0; s1; s2; s3]) with (b32 (s0 :: s1 :: s2 :: s3 :: f :: r) 0)
    by (change (b32 (s0 :: s1 :: s2 :: s3 :: f :: r) 0) with (s0 + 256 * s1 + 65536 * s2 + 16777216 * s3); cbn [unle]; lia).
  pose proof (b32_range _ 0 Hb) as Hr. set (t := b32 _ 0) in *. unfold utils_gps_to_unix, u32.
  cbv zeta. rewrite Zminus_mod_idemp_l. reflexivity.
Qed.

(** ** The loop *)
Lemma ctx_macfr E s s' : macfr s s' -> ctx_of E s' = ctx_of E s.
Proof. intros []. unfold ctx_of. congruence. Qed.

Lemma loop_run E fuel : forall rest h s, env_ok E -> Inv s -> bytes_ok rest -> (length rest <= fuel)%nat ->
  mac_run (ctx_of E s) h (mac_parse rest) (dev_of s) =
  (dev_of (fst (p_loop E fuel h rest s)), snd (p_loop E fuel h rest s)).
Proof.
  induction fuel; intros rest h s HE HI Hb Hf.
  { destruct rest; [reflexivity|cbn in Hf; lia]. }
  destruct rest as [|cid rest']; [reflexivity|].
  assert (Hb' : bytes_ok rest') by (inversion Hb; assumption).
  assert (Hstep : forall n c, p_size cid = Some n -> n <= len rest' ->
            mac_parse (cid :: rest') = c :: mac_parse (skipn (Z.to_nat n) rest') ->
            mac_exec (ctx_of E s) h c (dev_of s) = exec_of (p_cmd E h cid rest' s) ->
            mac_run (ctx_of E s) h (mac_parse (cid :: rest')) (dev_of s) =
            (dev_of (fst (p_loop E (S fuel) h (cid :: rest') s)), snd (p_loop E (S fuel) h (cid :: rest') s))).
  { intros n c Hn Hl Hp He. rewrite Hp. cbn [mac_run p_loop]. rewrite Hn, He.
    replace (n <=? len rest') with true by lia.
    pose proof (p_cmd_Inv E h cid rest' s HE HI Hb') as Hc.
    destruct (p_cmd E h cid rest' s) as [[b s1] e1]. destruct Hc as (C1 & C2 & C3). cbn [exec_of].
    destruct b; [|reflexivity].
    rewrite <- (ctx_macfr E s s1 C2). rewrite IHfuel.
    - destruct (p_loop E fuel (h ++ e1) (skipn (Z.to_nat n) rest') s1) as [s2 e2]. reflexivity.
    - exact HE.
    - exact C1.
    - apply bytes_skipn. exact Hb'.
    - rewrite skipn_length. cbn in Hf. lia. }
  assert (Hstop : mac_parse (cid :: rest') = [] ->
            match p_size cid with None => true | Some n => negb (n <=? len rest') end = true ->
            mac_run (ctx_of E s) h (mac_parse (cid :: rest')) (dev_of s) =
            (dev_of (fst (p_loop E (S fuel) h (cid :: rest') s)), snd (p_loop E (S fuel) h (cid :: rest') s))).
  { intros Hp Hn. rewrite Hp. cbn [mac_run p_loop]. destruct (p_size cid) as [n|]; [|reflexivity].
    destruct (n <=? len rest'); [discriminate|reflexivity]. }
  clear IHfuel Hf.
  Ltac stop_case Hstop := apply Hstop; reflexivity.
  Ltac len_ok := rewrite ?len_cons; match goal with |- context [len ?l] => pose proof (len_nonneg l); lia | |- _ => lia end.
  destruct (Z.eqb_spec cid 2) as [->|N2].
  { destruct rest' as [|a [|b r]]; [stop_case Hstop..|].
    eapply (Hstep 2); [reflexivity|len_ok|reflexivity|reflexivity]. }
  destruct (Z.eqb_spec cid 3) as [->|N3].
  { destruct rest' as [|a [|b [|c [|d r]]]]; [stop_case Hstop..|].
    eapply (Hstep 4); [reflexivity|len_ok|reflexivity|]. apply exec_link_adr; assumption. }
  destruct (Z.eqb_spec cid 4) as [->|N4].
  { destruct rest' as [|a r]; [stop_case Hstop|].
    eapply (Hstep 1); [reflexivity|len_ok|reflexivity|].
    cbn [mac_exec]. change (p_cmd E h 4 (a :: r) s) with (enq 4 [] s). rewrite exec_enq by exact (iv_mac _ HI). reflexivity. }
  destruct (Z.eqb_spec cid 5) as [->|N5].
  { destruct rest' as [|a [|b [|c [|d r]]]]; [stop_case Hstop..|].
    eapply (Hstep 4); [reflexivity|len_ok|reflexivity|]. apply exec_rx_param; assumption. }
  destruct (Z.eqb_spec cid 6) as [->|N6].
  { eapply (Hstep 0); [reflexivity|pose proof (len_nonneg rest'); lia|reflexivity|]. apply exec_dev_status. assumption. }
  destruct (Z.eqb_spec cid 7) as [->|N7].
  { destruct rest' as [|a [|b [|c [|d [|e r]]]]]; [stop_case Hstop..|].
    eapply (Hstep 5); [reflexivity|len_ok|reflexivity|]. apply exec_new_channel; assumption. }
  destruct (Z.eqb_spec cid 8) as [->|N8].
  { destruct rest' as [|a r]; [stop_case Hstop|].
    eapply (Hstep 1); [reflexivity|len_ok|reflexivity|]. apply exec_rx_timing; [assumption|]. inversion Hb'; assumption. }
  destruct (Z.eqb_spec cid 9) as [->|N9].
  { destruct rest' as [|a r]; [stop_case Hstop|].
    eapply (Hstep 1); [reflexivity|len_ok|reflexivity|reflexivity]. }
  destruct (Z.eqb_spec cid 10) as [->|N10].
  { destruct rest' as [|a [|b [|c [|d r]]]]; [stop_case Hstop..|].
    eapply (Hstep 4); [reflexivity|len_ok|reflexivity|reflexivity]. }
  destruct (Z.eqb_spec cid 13) as [->|N13].
  { destruct rest' as [|a [|b [|c [|d [|e r]]]]]; [stop_case Hstop..|].
    eapply (Hstep 5); [reflexivity|len_ok|reflexivity|]. apply exec_device_time; assumption. }
  apply Z.eqb_neq in N2, N3, N4, N5, N6, N7, N8, N9, N10, N13.
  apply Hstop.
  - cbn [mac_parse]. rewrite N2, N3, N4, N5, N6, N7, N8, N9, N10, N13. reflexivity.
  - unfold p_size. rewrite N2, N3, N4, N5, N6, N7, N8, N9, N10, N13. reflexivity.
Qed.
