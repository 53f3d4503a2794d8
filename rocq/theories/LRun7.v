(** LRun7.v -- executions of the SX127x driver: what the chip holds afterwards *)
From Verif Require Export LDrv7 SpecDrv.

(** ** The driver without the [1 << 31] check behaves alike where that returns *)
Definition relax (H : henv) : henv := Mk_henv (h_xfer H) false.
Lemma relax_ok H : henv_ok H -> henv_ok (relax H). Proof. auto. Qed.
Lemma bind_mono {S A B} (m m' : M S hev A) (f f' : A -> M S hev B) : (forall h s r, m h s = Ok r -> m' h s = Ok r) -> (forall a h s r, f a h s = Ok r -> f' a h s = Ok r) ->
  forall h s r, bind m f h s = Ok r -> bind m' f' h s = Ok r.
Proof.
  intros Hm Hf h s r. unfold bind. destruct (m h s) as [[[a s1] e1]|] eqn:E; [|discriminate]. rewrite (Hm _ _ _ E).
  destruct (f a (h ++ e1) s1) as [[[b s2] e2]|] eqn:E2; [|discriminate]. rewrite (Hf _ _ _ _ E2). auto.
Qed.
Lemma relax_out H vs : forall h (s : d127) r, xfer_out H vs h s = Ok r -> xfer_out (relax H) vs h s = Ok r.
Proof. induction vs as [|v vs IH]; [auto|]. cbn [xfer_out]. apply bind_mono; [auto|]. intros _. exact IH. Qed.
Lemma relax_in H f n : forall h (s : d127) r, xfer_in H f n h s = Ok r -> xfer_in (relax H) f n h s = Ok r.
Proof. induction n as [|n IH]; [auto|]. cbn [xfer_in]. apply bind_mono; [auto|]. intros v. apply bind_mono; [exact IH|auto]. Qed.
Lemma relax_calib H n : forall t h s r, calib_loop H n t h s = Ok r -> calib_loop (relax H) n t h s = Ok r.
Proof.
  induction n as [|n IH]; intros t; [auto|]. cbn [calib_loop]. cbv zeta. apply bind_mono; [auto|]. intros _. apply bind_mono; [auto|]. intros v h s r.
  destruct (negb (u8 (t - 1) =? 0) && negb (Z.land v 32 =? 0)); [apply IH|auto].
Qed.
Lemma relax_rand H n : forall i acc h s r, rand_loop H n i acc h s = Ok r -> rand_loop (relax H) n i acc h s = Ok r.
Proof.
  induction n as [|n IH]; intros i acc h s r E; [exact E|]. cbn [rand_loop] in *. unfold bind at 1 in E. unfold bind at 1.
  destruct (emit (HDelay 1000) h s) as [[[[] s1] e1]|] eqn:E1; [|discriminate]. unfold bind at 1 in E. unfold bind at 1.
  change (read_reg (relax H) REG_RSSI_WIDEBAND) with (read_reg H REG_RSSI_WIDEBAND).
  destruct (read_reg H REG_RSSI_WIDEBAND (h ++ e1) s1) as [[[v s2] e2]|] eqn:E2; [|discriminate]. unfold bind at 1 in E. unfold bind at 1. cbn [relax h_strict_shl andb].
  destruct (h_strict_shl H && (i =? 31) && (Z.land v 1 =? 1)); [discriminate|]. unfold ret at 1 in E. unfold ret at 1. cbv beta iota in *. 
  destruct (rand_loop H n (i + 1) (u32 (Z.lor acc (Z.shiftl (Z.land v 1) i))) (((h ++ e1) ++ e2) ++ []) s2) as [[[w s3] e3]|] eqn:E3; [|discriminate].
  rewrite (IH _ _ _ _ _ E3). exact E.
Qed.
Lemma relax_call H o h s r : call127 H o h s = Ok r -> call127 (relax H) o h s = Ok r.
Proof.
  destruct o; [|exact (fun e => e)|exact (fun e => e)|exact (fun e => e)|exact (fun e => e)|exact (fun e => e)| |exact (fun e => e)| | |exact (fun e => e)|exact (fun e => e)]; cbn [call127].
  - unfold as_b, sx127x_init. apply bind_mono; [|auto]. do 6 (apply bind_mono; [auto|intros _]). apply bind_mono; [auto|intros v h' s' r']. destruct (negb (v =? 18)); [auto|].
    apply bind_mono; [|auto]. unfold rx_calibartion. do 3 (apply bind_mono; [auto|intros ?]). apply relax_calib.
  - unfold as_u, sx127x_tx. apply bind_mono; [|auto]. do 2 (apply bind_mono; [auto|intros _]). apply bind_mono; [|auto].
    unfold write_regs. do 3 (apply bind_mono; [auto|intros ?]). apply bind_mono; [apply relax_out|auto].
  - unfold as_p, sx127x_read_packet. apply bind_mono; [|auto]. do 3 (apply bind_mono; [auto|intros ?]). cbv zeta. apply bind_mono; [|auto].
    intros h' s' r'. destruct (0 <? _); [|auto]. unfold read_array. revert h' s' r'. do 3 (apply bind_mono; [auto|intros ?]). apply bind_mono; [apply relax_in|auto].
  - unfold as_n, sx127x_rand.
    apply bind_mono; [|auto]. apply bind_mono; [auto|]. intros _. apply bind_mono; [auto|]. intros _. apply bind_mono; [|auto]. intros h0 s0 r0. apply relax_rand.
Qed.

(** ** Calls of a driver in use *)
Definition is_init (o : rop) : bool := match o with PInit _ _ => true | _ => false end.
Lemma shape_hal H c0 c s o v s' bs : shape H c0 c s o v s' bs -> (is_init o = true \/ exists x, a_hal s = Some x) -> exists x, a_hal s' = Some x.
Proof.
  destruct o; cbn [shape is_init]; intros Hs Hx.
  1: destruct Hs as [-> _]; eexists; reflexivity.
  all: destruct Hx as [Hx|[x Hx]]; [discriminate|]; exists x.
  3: destruct ((p <? -4) || (17 <? p)).
  all: destruct Hs as [-> _]; exact Hx.
Qed.
Lemma call_inv H c0 hi s o v s' es : henv_ok H -> Forall item_ok hi -> rop_wf o -> (is_init o = true \/ exists x, a_hal s = Some x) -> call127 H o (unparse hi) s = Ok (v, s', es) ->
  exists its bs, es = unparse its /\ Forall item_ok its /\ Forall2 like bs its /\ shape (relax H) c0 (chip127 c0 hi) s o v s' bs.
Proof.
  intros HH F W Hx E. apply relax_call in E.
  assert (X : (exists hal d, o = PInit hal d) \/ exists x, a_hal s = Some x) by (destruct Hx as [Hx|Hx]; [left; destruct o; try discriminate; eauto|right; exact Hx]).
  pose proof (call127_shape (relax H) (relax_ok H HH) c0 (chip127 c0 hi) s o W X (fun _ => eq_refl) hi F eq_refl) as (v1 & s1 & its & E1 & F1 & bs & L1 & Sh).
  rewrite E in E1. injection E1 as -> -> ->. exists its, bs. auto.
Qed.
(** a usable position: the history is made of transactions, the HAL is known *)
Definition pos (h : list hev) (s : d127) (hi : list item) : Prop := h = unparse hi /\ Forall item_ok hi /\ exists x, a_hal s = Some x.
Lemma rexec_ind2 H (P : list rentry -> list hev -> d127 -> Prop) :
  (forall o v s' es, is_init o = true -> rop_wf o -> call127 H o [] d127_0 = Ok (v, s', es) -> P [(o, v, es)] es s') ->
  (forall tr h s o v s' es, used127 H tr h s -> P tr h s -> rop_wf o -> call127 H o h s = Ok (v, s', es) -> P (tr ++ [(o, v, es)]) (h ++ es) s') ->
  forall tr h s, used127 H tr h s -> P tr h s.
Proof.
  intros P0 P1 tr h s [HX W]. unfold rtrace_wf in W. revert W.
  remember [] as h0 eqn:Eh. remember d127_0 as s0 eqn:Es. induction HX as [h s|h s tr h1 s1 o v s2 es HX IH Hc]; intros [W1 W2].
  - destruct W2 as (? & ? & ? & ? & ? & W2). discriminate.
  - subst h s. specialize (IH eq_refl eq_refl). destruct tr as [|t tr].
    + clear IH. inversion HX as [? ? | ? ? tr' ? ? o' v' ? es' HX' Hc' E1]; subst.
      * destruct W2 as (hal & d & v' & es' & tr' & W2). cbn in W2. injection W2 as -> -> -> _. cbn [app]. apply P0; [reflexivity| |exact Hc]. exact (Forall_inv W1).
      * destruct tr'; discriminate.
    + apply Forall_app in W1 as [W1 W1']. destruct W2 as (hal & d & v' & es' & tr' & W2). cbn in W2. injection W2 as Ht _.
      assert (W : Forall (fun t => rop_wf (fst (fst t))) (t :: tr) /\ exists hal opts v es tr', t :: tr = (PInit hal opts, v, es) :: tr') by (split; [exact W1|subst t; eauto 6]).
      apply (P1 (t :: tr) h1 s1); [split; [exact HX|exact W]|exact (IH P0 W)|exact (Forall_inv W1')|exact Hc].
Qed.
Lemma used_pos H tr h s : henv_ok H -> used127 H tr h s -> exists hi, pos h s hi.
Proof.
  intros HH. apply (rexec_ind2 H (fun tr h s => exists hi, pos h s hi)).
  - intros o v s' es Hi W E. change (@nil hev) with (unparse []) in E. destruct (call_inv H (Mk_c127 reset127 (fun _ => 0) []) [] d127_0 o v s' es HH (Forall_nil _) W (or_introl Hi) E) as (its & bs & -> & F & _ & Sh).
    exists its. split; [reflexivity|]. split; [exact F|]. eapply shape_hal; [exact Sh|left; exact Hi].
  - intros tr' h' s0 o v s' es _ (hi & -> & F & Ho) W E. destruct (call_inv H (Mk_c127 reset127 (fun _ => 0) []) hi s0 o v s' es HH F W (or_intror Ho) E) as (its & bs & -> & F' & _ & Sh).
    exists (hi ++ its). split; [symmetry; apply unparse_app|]. split; [apply Forall_app; auto|]. eapply shape_hal; [exact Sh|right; exact Ho].
Qed.
(** a call in a used driver *)
Lemma used_call H c0 tr h s o v s' es : henv_ok H -> used127 H tr h s -> rop_wf o -> call127 H o h s = Ok (v, s', es) ->
  exists hi its bs, transcript h = Some hi /\ transcript es = Some its /\ Forall2 like bs its /\ shape (relax H) c0 (chip127 c0 hi) s o v s' bs /\ h = unparse hi /\ es = unparse its.
Proof.
  intros HH HU W E. destruct (used_pos H tr h s HH HU) as (hi & -> & F & Ho). destruct (call_inv H c0 hi s o v s' es HH F W (or_intror Ho) E) as (its & bs & -> & F' & L & Sh).
  exists hi, its, bs. repeat split; auto; apply transcript_unparse; assumption.
Qed.
Lemma used_snoc H tr h s o v s' es : used127 H tr h s -> rop_wf o -> call127 H o h s = Ok (v, s', es) -> used127 H (tr ++ [(o, v, es)]) (h ++ es) s'.
Proof.
  intros [HX [W1 W2]] W E. split; [econstructor; eassumption|]. split; [apply Forall_app; split; [exact W1|constructor; [exact W|constructor]]|].
  destruct W2 as (hal & d & v' & es' & tr' & ->). exists hal, d, v', es', (tr' ++ [(o, v, es)]). reflexivity.
Qed.
Lemma used_progress H tr h s o : henv_ok H -> used127 H tr h s -> rop_wf o -> (o = PRand -> h_strict_shl H = false) -> exists v s' es, call127 H o h s = Ok (v, s', es).
Proof.
  intros HH HU W Hr. destruct (used_pos H tr h s HH HU) as (hi & -> & F & Ho).
  destruct (call127_shape H HH (Mk_c127 reset127 (fun _ => 0) []) _ s o W (or_intror Ho) Hr hi F eq_refl) as (v & s' & its & E & _). eauto.
Qed.

(** ** Effect on the chip *)
Definition touched (bs : list bop) : list Z :=
  flat_map (fun b => match b with BW a vs => if a =? 0 then [13] else map (fun i => a + Z.of_nat i) (seq 0 (length vs)) | _ => [] end) bs.
Definition resets (bs : list bop) : bool := existsb (fun b => match b with BD (HReset true) => true | _ => false end) bs.
Lemma store_other c a v x : x <> (if a =? 0 then 13 else a) -> c_reg (store127 c a v) x = c_reg c x.
Proof.
  intro Hx. unfold store127. destruct (a =? 0) eqn:E0.
  - destruct (c_reg c 1 mod 8 =? 0); [reflexivity|]. cbn [c_reg]. unfold put. replace (x =? 13) with false by lia. reflexivity.
  - destruct (a =? 1) eqn:E1; cbn [c_reg]; unfold put; [replace (x =? 1) with false by lia|replace (x =? a) with false by lia]; reflexivity.
Qed.
Lemma burst_other vs : forall c a x, 0 <= a -> (a = 0 \/ a + len vs <= 128) -> ~ In x (if a =? 0 then [13] else map (fun i => a + Z.of_nat i) (seq 0 (length vs))) \/ vs = [] -> c_reg (burst127 c a vs) x = c_reg c x.
Proof.
  induction vs as [|v vs IH]; intros c a x Ha Hl Hx; [reflexivity|]. destruct Hx as [Hx|Hx]; [|discriminate]. cbn [burst127].
  destruct (a =? 0) eqn:E0.
  - rewrite IH; [|lia|left; reflexivity|left; exact Hx]. apply store_other. rewrite E0. intro X. apply Hx. left. auto.
  - destruct Hl as [Hl|Hl]; [lia|]. rewrite len_cons in Hl. assert (S : c_reg (store127 c a v) x = c_reg c x).
    { apply store_other. rewrite E0. intros ->. apply Hx. cbn [length seq map]. left. lia. }
    destruct vs as [|v' vs']; [exact S|]. pose proof (Z.le_refl 0). assert (Lv : 0 < len (v' :: vs')) by (rewrite len_cons; unfold len; lia).
    rewrite IH; [exact S| | |].
    + apply Z.mod_pos_bound. lia.
    + right. rewrite Z.mod_small by lia. lia.
    + left. rewrite Z.mod_small by lia. replace (a + 1 =? 0) with false by lia. intro X. apply Hx.
      apply in_map_iff in X as (i & Hi & Hin). apply in_map_iff. exists (Datatypes.S i). split; [lia|]. cbn [length] in Hin. apply in_seq in Hin. apply in_seq. cbn [length]. lia.
Qed.
Lemma burst_acts vs : forall c a, a <> 1 -> 0 <= a -> (a = 0 \/ (1 < a /\ a + len vs <= 128)) -> c_acts (burst127 c a vs) = c_acts c.
Proof.
  induction vs as [|v vs IH]; intros c a N Ha Hl; [reflexivity|]. cbn [burst127].
  assert (S : c_acts (store127 c a v) = c_acts c).
  { unfold store127. replace (a =? 1) with false by lia. destruct (a =? 0); [destruct (c_reg c 1 mod 8 =? 0)|]; reflexivity. }
  destruct (a =? 0) eqn:E0; [rewrite IH by lia; exact S|]. destruct Hl as [Hl|Hl]; [lia|]. rewrite len_cons in Hl.
  destruct vs as [|v' vs']; [exact S|]. assert (Lv : 0 < len (v' :: vs')) by (rewrite len_cons; unfold len; lia).
  rewrite Z.mod_small by lia. rewrite IH; [exact S|lia|lia|lia].
Qed.
Definition in_page (b : bop) : bool := match b with BW a vs => (0 <=? a) && ((a =? 0) || (a + len vs <=? 128)) | _ => true end.
Lemma chips_other bs : forall c x, forallb in_page bs = true -> resets bs = false -> ~ In x (touched bs) -> c_reg (bchips c bs) x = c_reg c x.
Proof.
  induction bs as [|b bs IH]; intros c x Hp Hr Hx; [reflexivity|]. cbn [forallb] in Hp. apply Bool.andb_true_iff in Hp as [Hb Hp']. cbn [resets existsb] in Hr. apply Bool.orb_false_iff in Hr as [Hr1 Hr2].
  cbn [touched flat_map] in Hx. rewrite in_app_iff in Hx. unfold bchips. cbn [fold_left]. fold (bchips (bchip c b) bs). rewrite IH; [|exact Hp'|exact Hr2|tauto].
  destruct b as [a vs|a vs|e]; cbn [bchip].
  - cbn [in_page] in Hb. apply burst_other; [lia|lia|]. left. tauto.
  - reflexivity.
  - destruct e as [[|]| | | | | | | |]; try reflexivity. discriminate.
Qed.
(** ** changing the mode *)
Definition started (r : Z -> Z) (fifo : Z -> Z) (mode : Z) : list act :=
  if mode =? 3 then [Air (modem127 r) (mem fifo (r 14) (r 34))] else
  if mode =? 5 then [Listen (modem127 r) Continuous (symb127 r) (r 35)] else
  if mode =? 6 then [Listen (modem127 r) Single (symb127 r) (r 35)] else [].
Lemma modem_ext r r' : (forall a, a <> 1 -> r' a = r a) -> bit (r' 1) 7 = bit (r 1) 7 -> modem127 r' = modem127 r.
Proof. intros He Hb. unfold modem127. rewrite Hb, !He by lia. reflexivity. Qed.
Lemma bit7 w : bit w 7 = Z.odd (w / 128). Proof. reflexivity. Qed.
Lemma bit7_of v mode : is_byte v -> 0 <= mode < 8 -> bit (8 * (v / 8) + mode) 7 = bit v 7.
Proof. intros Hv Hm. rewrite !bit7. f_equal. change 128 with (8 * 16). rewrite <- !Z.div_div by lia. f_equal. symmetry. apply Z.div_unique with mode; lia. Qed.
Lemma bit7_32 x v : v / 8 = x / 8 mod 32 -> bit v 7 = bit x 7.
Proof.
  intro E. rewrite !bit7. change 128 with (8 * 16). rewrite <- !Z.div_div by lia. rewrite E.
  pose proof (Z.div_mod (x / 8) 32 ltac:(lia)) as D. pose proof (Z.mod_pos_bound (x / 8) 32 ltac:(lia)) as B. set (y := x / 8) in *. set (q := y / 32) in *. set (r := y mod 32) in *.
  assert (F : y / 16 = 2 * q + r / 16) by (symmetry; apply Z.div_unique with (r mod 16); [pose proof (Z.mod_pos_bound r 16 ltac:(lia)); lia|pose proof (Z.div_mod r 16 ltac:(lia)); lia]).
  rewrite F, Z.odd_add, Z.odd_mul. cbn. destruct (Z.odd (r / 16)); reflexivity.
Qed.
Lemma mode_chip H c0 c mode bs : mode_to H c0 c mode bs -> 0 <= mode < 8 ->
  let c' := bchips c bs in
  c_reg c' 1 mod 8 = mode /\ (forall a, a <> 1 -> c_reg c' a = c_reg c a) /\ c_fifo c' = c_fifo c /\
  (c_reg c 1 mod 8 <> 0 \/ answers127 c0 H -> bit (c_reg c' 1) 7 = bit (c_reg c 1) 7) /\
  c_acts c' = c_acts c ++ started (c_reg c') (c_fifo c) mode.
Proof.
  intros (v & w & Bv & Bw & Ew & Ha & ->) Hm. cbv zeta. unfold bchips. cbn [fold_left bchip burst127]. set (c' := store127 c 1 w).
  set (r := c_reg c). assert (E : c' = let x := if r 1 mod 8 =? 0 then w else w mod 128 + 128 * b2z (bit (r 1) 7) in
    Mk_c127 (put r 1 x) (c_fifo c) (c_acts c ++ started (put r 1 x) (c_fifo c) (x mod 8))) by reflexivity.
  assert (W8 : w mod 8 = mode) by (rewrite Ew; rewrite Z.add_comm, Z.mul_comm, Z.mod_add by lia; apply Z.mod_small; lia).
  assert (X8 : forall t, (w mod 128 + 128 * t) mod 8 = mode).
  { intro t. replace (128 * t) with (16 * t * 8) by lia. rewrite Z.mod_add by lia. rewrite <- W8. symmetry. apply Znumtheory.Zmod_div_mod; [lia|lia|]. exists 16. reflexivity. }
  assert (R1 : c_reg c' 1 mod 8 = mode) by (rewrite E; cbv zeta; cbn [c_reg]; unfold put; cbn; destruct (r 1 mod 8 =? 0); [exact W8|apply X8]).
  assert (RO : forall a, a <> 1 -> c_reg c' a = c_reg c a) by (intros a N; apply store_other; cbn; exact N).
  split; [exact R1|]. split; [exact RO|]. split; [rewrite E; reflexivity|]. split.
  - intro Hn. rewrite E. cbv zeta. cbn [c_reg]. unfold put. change (1 =? 1) with true. cbv iota. fold r in Hn. change (c_reg c 1) with (r 1). destruct (Z.eq_dec (r 1 mod 8) 0) as [Z0|Z0].
    + replace (r 1 mod 8 =? 0) with true by lia. destruct Hn as [Hn|Hn]; [lia|]. rewrite Ew, bit7_of by assumption. apply bit7_32, Ha, Hn.
    + replace (r 1 mod 8 =? 0) with false by lia. rewrite bit7. rewrite Z.mul_comm, Z.div_add by lia. rewrite Z.div_small by (apply Z.mod_pos_bound; lia). cbn. destruct (bit (r 1) 7); reflexivity.
  - rewrite E. cbv zeta. cbn [c_acts c_reg]. f_equal. f_equal. destruct (r 1 mod 8 =? 0); [exact W8|apply X8].
Qed.
(** ** the FIFO *)
Lemma fifo_burst vs : forall c, c_reg c 1 mod 8 <> 0 -> 0 <= c_reg c 13 -> c_reg c 13 + len vs <= 256 ->
  let c' := burst127 c 0 vs in
  (forall a, a <> 13 -> c_reg c' a = c_reg c a) /\ c_acts c' = c_acts c /\
  (forall i, c_fifo c' i = if (c_reg c 13 <=? i) && (i <? c_reg c 13 + len vs) then nth (Z.to_nat (i - c_reg c 13)) vs 0 else c_fifo c i).
Proof.
  induction vs as [|v vs IH]; intros c Hn H0 Hl; cbv zeta.
  - split; [reflexivity|]. split; [reflexivity|]. intro i. cbn [burst127]. change (len []) with 0. destruct ((c_reg c 13 <=? i) && (i <? c_reg c 13 + 0)) eqn:E; [lia|reflexivity].
  - cbn [burst127 Z.eqb]. set (c1 := store127 c 0 v). rewrite len_cons in *. assert (Lp : 0 <= len vs) by (unfold len; lia).
    assert (E1 : c1 = Mk_c127 (put (c_reg c) 13 ((c_reg c 13 + 1) mod 256)) (put (c_fifo c) (c_reg c 13) v) (c_acts c)).
    { unfold c1, store127. cbn [Z.eqb]. replace (c_reg c 1 mod 8 =? 0) with false by lia. reflexivity. }
    destruct vs as [|v' vs'].
    + cbn [burst127]. rewrite E1. cbn [c_reg c_acts c_fifo]. split; [intros a N; unfold put; replace (a =? 13) with false by lia; reflexivity|]. split; [reflexivity|].
      intro i. unfold put. change (len []) with 0. destruct (i =? c_reg c 13) eqn:E.
      * replace ((c_reg c 13 <=? i) && (i <? c_reg c 13 + (1 + 0))) with true by lia. replace (i - c_reg c 13) with 0 by lia. reflexivity.
      * replace ((c_reg c 13 <=? i) && (i <? c_reg c 13 + (1 + 0))) with false by lia. reflexivity.
    + assert (Lv : 1 <= len (v' :: vs')) by (rewrite len_cons; unfold len; lia).
      assert (P13 : c_reg c1 13 = c_reg c 13 + 1) by (rewrite E1; cbn [c_reg]; unfold put; cbn; apply Z.mod_small; lia).
      destruct (IH c1) as (A & B & D).
      * rewrite E1. cbn [c_reg]. unfold put. cbn. exact Hn.
      * lia.
      * lia.
      * set (c2 := burst127 c1 0 (v' :: vs')) in *. clearbody c2. set (l := v' :: vs') in *. split; [|split].
        -- intros a N. rewrite A by exact N. rewrite E1. cbn [c_reg]. unfold put. replace (a =? 13) with false by lia. reflexivity.
        -- rewrite B, E1. reflexivity.
        -- intro i. rewrite D, P13. rewrite E1. cbn [c_fifo]. unfold put. destruct (i =? c_reg c 13) eqn:E.
           ++ replace ((c_reg c 13 + 1 <=? i) && (i <? c_reg c 13 + 1 + len l)) with false by lia. replace ((c_reg c 13 <=? i) && (i <? c_reg c 13 + (1 + len l))) with true by lia.
              replace (i - c_reg c 13) with 0 by lia. reflexivity.
           ++ destruct ((c_reg c 13 + 1 <=? i) && (i <? c_reg c 13 + 1 + len l)) eqn:F.
              ** replace ((c_reg c 13 <=? i) && (i <? c_reg c 13 + (1 + len l))) with true by lia. replace (Z.to_nat (i - c_reg c 13)) with (Datatypes.S (Z.to_nat (i - (c_reg c 13 + 1)))) by lia. reflexivity.
              ** replace ((c_reg c 13 <=? i) && (i <? c_reg c 13 + (1 + len l))) with false by lia. reflexivity.
Qed.
Lemma mem_fifo f vs : (forall i, 0 <= i < len vs -> f i = nth (Z.to_nat i) vs 0) -> len vs <= 256 -> mem f 0 (len vs) = vs.
Proof.
  intros Hf Hl. unfold mem. assert (E : map (fun i : nat => f ((0 + Z.of_nat i) mod 256)) (seq 0 (Z.to_nat (len vs))) = map (fun i => nth i vs 0) (seq 0 (length vs))).
  { unfold len. rewrite Nat2Z.id. apply map_ext_in. intros i Hi. apply in_seq in Hi. unfold len in *. rewrite Z.mod_small by lia. rewrite Hf by lia. f_equal. lia. }
  rewrite E. clear. induction vs as [|v vs IH]; [reflexivity|]. cbn [length seq map nth]. f_equal. rewrite <- seq_shift, map_map. exact IH.
Qed.
