(** LAir7.v -- src/device/sx127x.c: what a call puts on the air, resets, and remembers *)
From Verif Require Export LWant7.

Lemma polls_rs a rs : brs (RsUp true) (polls a rs) = Some (RsUp true).
Proof. induction rs as [|r rs IH]; [reflexivity|]. exact IH. Qed.
Lemma mode_rs H c0 c mode m : mode_to H c0 c mode m -> brs (RsUp true) m = Some (RsUp true).
Proof. intros (v & w & _ & _ & _ & _ & ->). reflexivity. Qed.
Ltac brs_go := rewrite ?brs_app; cbn [brs brs_see rs_see app]; rewrite ?brs_app, ?polls_rs; repeat (erewrite mode_rs by eassumption); rewrite ?brs_app, ?polls_rs; repeat (erewrite mode_rs by eassumption).
Lemma shape_rs H c0 c s o v s' bs p : shape H c0 c s o v s' bs -> is_init o = true \/ p = RsUp true -> brs p bs = Some (RsUp true).
Proof.
  destruct o as [hal d| |f|q|b|q|buf|n symb t|cap| | |b]; intros Sh Hp; try (destruct Hp as [Hp|Hp]; [discriminate|]; subst p).
  - destruct Sh as (_ & ver & _ & [(_ & -> & ->)|(_ & x & w & rs & ok & _ & _ & -> & _ & _ & _ & _ & _ & ->)]).
    + unfold init_head, opt. destruct (has_io_deinit hal); reflexivity.
    + unfold init_head, opt. rewrite !brs_app. destruct (has_io_deinit hal); cbn [brs brs_see rs_see app Z.leb Z.compare Pos.compare Pos.compare_cont]; rewrite brs_app, polls_rs; destruct ok; reflexivity.
  - destruct Sh as (-> & -> & hal & Ho & m & Hm & ->). brs_go. unfold opt. destruct (has_io_deinit hal); reflexivity.
  - destruct Sh as (-> & -> & ->). reflexivity.
  - cbn [shape] in Sh. destruct ((q <? -4) || (17 <? q)); destruct Sh as (-> & -> & ->); reflexivity.
  - destruct Sh as (-> & -> & ->). reflexivity.
  - destruct Sh as (-> & -> & hal & Ho & m & Hm & ->). brs_go. unfold opt. destruct (has_io_init hal); reflexivity.
  - destruct Sh as (-> & -> & hal & Ho & m & Hm & ->). cbv zeta. unfold opt. destruct (has_ant hal); brs_go; reflexivity.
  - destruct Sh as (-> & -> & hal & Ho & x & _ & _ & m & Hm & ->). unfold opt. destruct (has_ant hal); brs_go; reflexivity.
  - destruct Sh as (-> & ptr & n & data & snr & rssi & _ & _ & _ & _ & _ & _ & -> & ->). destruct (0 <? Z.min cap n); reflexivity.
  - destruct Sh as (-> & m1 & rs & m2 & Hm1 & Hm2 & _ & _ & -> & ->). brs_go. reflexivity.
  - destruct Sh as (-> & f & _ & -> & ->). unfold opt. destruct (a_handler s); reflexivity.
  - destruct Sh as (-> & -> & ->). reflexivity.
Qed.
Lemma rs_run_app a : forall p b, rs_run p (a ++ b) = match rs_run p a with Some q => rs_run q b | None => None end.
Proof. induction a as [|i a IH]; intros p b; [reflexivity|]. cbn [app rs_run]. destruct (rs_see p i); [apply IH|reflexivity]. Qed.
Lemma used_rs H p tr h s : henv_ok H -> used127 H tr h s -> exists hi, h = unparse hi /\ Forall item_ok hi /\ rs_run p hi = Some (RsUp true).
Proof.
  set (c0 := Mk_c127 reset127 (fun _ => 0) []).
  intros HH. apply (rexec_ind2 H (fun tr h s => exists hi, h = unparse hi /\ Forall item_ok hi /\ rs_run p hi = Some (RsUp true))).
  - intros o v s' es Hi W E. change (@nil hev) with (unparse []) in E. destruct (call_inv H c0 [] d127_0 o v s' es HH (Forall_nil _) W (or_introl Hi) E) as (its & bs & -> & F & L & Sh).
    exists its. split; [reflexivity|]. split; [exact F|]. rewrite (like_rs _ _ L). eapply shape_rs; [exact Sh|left; exact Hi].
  - intros tr0 h0 s0 o v s' es HU (hi & -> & F & R) W E. destruct (used_pos H _ _ _ HH HU) as (hi' & Eh & F' & Ho).
    destruct (call_inv H c0 hi s0 o v s' es HH F W (or_intror Ho) E) as (its & bs & -> & F2 & L & Sh).
    exists (hi ++ its). split; [symmetry; apply unparse_app|]. split; [apply Forall_app; split; assumption|]. rewrite rs_run_app, R, (like_rs _ _ L). eapply shape_rs; [exact Sh|right; reflexivity].
Qed.

(** ** what the driver remembers *)
Lemma shape_kept H c0 c s o v s' bs : shape H c0 c s o v s' bs ->
  a_handler s' = (match o with PHandler b => b | _ => a_handler s end) /\
  a_rssi_offset s' = (match o, v with PPower p, RvBool true => if p <=? 14 then -164 else -157 | _, _ => a_rssi_offset s end).
Proof.
  destruct o as [hal d| |f|q|b|q|buf|n symb t|cap| | |b]; cbn [shape]; intro Sh.
  4: destruct ((q <? -4) || (17 <? q)); destruct Sh as (-> & -> & ->); split; reflexivity.
  all: destruct Sh as [-> _]; split; reflexivity.
Qed.
(** RSSI offset in force: chosen by the power set last, whether or not the driver was
    initialised again since *)
Definition offset (tr : list rentry) : Z :=
  fold_left (fun u t => match fst (fst t), snd (fst t) with PPower p, RvBool true => if p <=? 14 then -164 else -157 | _, _ => u end) tr 0.
Lemma offset_range tr : -164 <= offset tr <= 0.
Proof.
  unfold offset. assert (G : forall (l : list rentry) u, -164 <= u <= 0 -> -164 <= fold_left (fun u t => match fst (fst t), snd (fst t) with PPower p, RvBool true => if p <=? 14 then -164 else -157 | _, _ => u end) l u <= 0); [|apply G; lia].
  induction l as [|[[o v] es] l IH]; intros u Hu; [exact Hu|]. cbn [fold_left fst snd]. apply IH. destruct o as [hal d| |f|q|b|q|buf|n symb t|cap| | |b]; auto. destruct v as [|[|]| |]; auto. destruct (q <=? 14); lia.
Qed.
Lemma used_kept H tr h s : henv_ok H -> used127 H tr h s -> a_handler s = handler tr /\ a_rssi_offset s = offset tr.
Proof.
  intros HH. apply (rexec_ind2 H (fun tr h s => a_handler s = handler tr /\ a_rssi_offset s = offset tr)).
  - intros o v s' es Hi W E. change (@nil hev) with (unparse []) in E. destruct (call_inv H (Mk_c127 reset127 (fun _ => 0) []) [] d127_0 o v s' es HH (Forall_nil _) W (or_introl Hi) E) as (its & bs & -> & F & L & Sh).
    destruct (shape_kept _ _ _ _ _ _ _ _ Sh) as [-> ->]. destruct o; try discriminate. split; reflexivity.
  - intros tr0 h0 s0 o v s' es HU [IH1 IH2] W E.
    destruct (used_call H (Mk_c127 reset127 (fun _ => 0) []) _ _ _ _ _ _ _ HH HU W E) as (hi & its & bs & _ & _ & _ & Sh & _ & _).
    destruct (shape_kept _ _ _ _ _ _ _ _ Sh) as [-> ->]. unfold handler, offset. rewrite !fold_left_app. cbn [fold_left fst snd]. rewrite IH1, IH2. split; reflexivity.
Qed.

(** ** on the air *)
Lemma modem_same r r' : (forall a, In a [6; 7; 8; 9; 77; 29; 38; 51; 59; 32; 33; 57] -> r' a = r a) -> r' 30 / 4 = r 30 / 4 -> bit (r' 1) 7 = bit (r 1) 7 -> modem127 r' = modem127 r.
Proof.
  intros He Hq Hb. unfold modem127. destruct (div4 _ _ Hq) as [-> ->]. rewrite Hb. rewrite !He by (cbn; tauto). reflexivity.
Qed.
Lemma tx_acts H c0 c s buf v s' bs : shape H c0 c s (PTx buf) v s' bs -> c_reg c 1 mod 8 = 1 -> len buf <= 255 ->
  c_acts (bchips c bs) = c_acts c ++ [Air (modem127 (c_reg c)) buf].
Proof.
  intros (-> & -> & hal & Ho & m & Hm & ->) Hr Hl. cbv zeta in *. set (pre := _ ++ opt _ _) in *. rewrite bchips_app.
  pose proof (mode_chip H c0 _ 3 m Hm ltac:(lia)) as (M1 & M2 & M3 & M4 & M5). cbv zeta in *. rewrite M5. unfold started. cbn [Z.eqb Pos.eqb].
  assert (P : c_acts (bchips c pre) = c_acts c /\ c_reg (bchips c pre) 14 = 0 /\ c_reg (bchips c pre) 34 = len buf /\
    (forall i, 0 <= i < len buf -> c_fifo (bchips c pre) i = nth (Z.to_nat i) buf 0) /\ (forall a, ~ In a [14; 13; 34; 17; 64] -> c_reg (bchips c pre) a = c_reg c a)).
  { assert (X : bchips c pre = bchips (burst127 (bchips c [BW 14 [0]; BW 13 [0]]) 0 buf) ([BW 34 [len buf]; BW 17 [247]; BW 64 [64]] ++ opt (has_ant hal) (HAnt false))) by reflexivity.
    rewrite X. set (c1 := bchips c [BW 14 [0]; BW 13 [0]]). destruct (fifo_burst buf c1) as (A & B & D).
    - change (c_reg c1 1) with (c_reg c 1). lia.
    - change (c_reg c1 13) with 0. lia.
    - change (c_reg c1 13) with 0. lia.
    - cbv zeta in A, B, D. set (c2 := burst127 c1 0 buf) in *. clearbody c2. change (c_reg c1 13) with 0 in D.
      assert (Y : forall x, bchips c2 ([BW 34 [len buf]; BW 17 [247]; BW 64 [64]] ++ opt x (HAnt false)) = bchips c2 [BW 34 [len buf]; BW 17 [247]; BW 64 [64]]) by (intros [|]; reflexivity).
      rewrite Y. change (c_acts (bchips c2 _)) with (c_acts c2). change (c_fifo (bchips c2 _)) with (c_fifo c2). change (c_reg (bchips c2 _) 14) with (c_reg c2 14).
      split; [rewrite B; reflexivity|]. split; [rewrite A by lia; reflexivity|]. split; [reflexivity|]. split.
      + intros i Hi. rewrite D. replace ((0 <=? i) && (i <? 0 + len buf)) with true by lia. f_equal. lia.
      + intros a Ha. rewrite chips_other; [|reflexivity|reflexivity|cbn in *; lia]. cbn in Ha. rewrite A by lia. unfold c1. apply chips_other; [reflexivity|reflexivity|cbn; lia]. }
  destruct P as (P1 & P2 & P3 & P4 & P5). clearbody pre. set (c1 := bchips c pre) in *. clearbody c1. rewrite P1. f_equal. f_equal. f_equal.
  - apply modem_same.
    + intros a Ha. rewrite M2, P5; [reflexivity|cbn in *; lia|cbn in *; lia].
    + rewrite M2, P5 by (cbn; lia). reflexivity.
    + rewrite M4, P5 by (first [cbn; lia|left; rewrite P5 by (cbn; lia); lia]). reflexivity.
  - rewrite !M2, P2, P3 by lia. apply mem_fifo; [exact P4|lia].
Qed.
Lemma rx_acts H c0 c s n symb t v s' bs : shape H c0 c s (PRx n symb t) v s' bs -> answers127 c0 H -> is_byte (c_reg c 30) ->
  exists m, c_acts (bchips c bs) = c_acts c ++ [Listen m (if t =? 0 then Single else Continuous) (symb mod 1024) n] /\ m = modem127 (c_reg c).
Proof.
  intros (-> & -> & hal & Ho & x & Bx & Hx & m & Hm & ->) HA B30. specialize (Hx HA). rewrite Z.mod_small in Hx by exact B30. cbv zeta in *. set (pre := _ ++ opt _ _) in *. rewrite bchips_app.
  assert (Mr : 0 <= (if t =? 0 then 6 else 5) < 8) by (destruct (t =? 0); lia).
  pose proof (mode_chip H c0 _ _ m Hm Mr) as (M1 & M2 & M3 & M4 & M5). cbv zeta in *. rewrite M5.
  assert (O : forall a, ~ In a [30; 31; 14; 13; 35; 54; 58; 17; 64] -> c_reg (bchips c pre) a = c_reg c a).
  { intros a Ha. unfold pre, opt. destruct (has_ant hal); (apply chips_other; [page|reflexivity|cbn in *; lia]). }
  assert (R : c_reg (bchips c pre) 30 = Z.lor (Z.land x (Z.lnot 3)) (Z.land (Z.shiftr symb 8) 3) /\ c_reg (bchips c pre) 31 = Z.land symb 255 /\ c_reg (bchips c pre) 35 = n /\ c_acts (bchips c pre) = c_acts c)
    by (unfold pre, opt; destruct (has_ant hal); repeat split).
  destruct R as (R30 & R31 & R35 & Ra). clearbody pre. set (c1 := bchips c pre) in *. clearbody c1. rewrite Ra. eexists. split; [|reflexivity]. f_equal.
  rewrite land3 in R30 by exact Bx. assert (Q30 : c_reg c1 30 mod 4 = symb / 256 mod 4).
  { rewrite R30. rewrite Z.add_comm, Z.mul_comm, Z.mod_add by lia. rewrite Z.mod_mod by lia. rewrite Z.shiftr_div_pow2 by lia. reflexivity. }
  assert (SY : symb127 (c_reg (bchips c1 m)) = symb mod 1024).
  { unfold symb127. rewrite !M2, Q30, R31, land255 by lia. change 1024 with (256 * 4). rewrite Z.rem_mul_r by lia. lia. }
  assert (MO : modem127 (c_reg (bchips c1 m)) = modem127 (c_reg c)).
  { apply modem_same.
    - intros a Ha. rewrite M2, O; [reflexivity|cbn in *; lia|cbn in *; lia].
    - rewrite M2 by lia. rewrite R30, Hx. symmetry. apply Z.div_unique with (Z.shiftr symb 8 mod 4); [|lia]. left. apply Z.mod_pos_bound. lia.
    - rewrite M4, O by (first [cbn; lia|right; exact HA]). reflexivity. }
  unfold started. rewrite SY, MO, (M2 35), R35 by lia. destruct (t =? 0); reflexivity.
Qed.
Lemma aired_app a b : aired (a ++ b) = aired a ++ aired b. Proof. apply flat_map_app. Qed.
(** nothing but tx() transmits *)
Lemma quiet_acts H c0 c s o v s' bs : shape H c0 c s o v s' bs -> (forall buf, o <> PTx buf) -> aired (c_acts (bchips c bs)) = aired (c_acts c).
Proof.
  intros Sh N. destruct o as [hal d| |f|q|b|q|buf|n symb t|cap| | |b].
  - destruct Sh as (_ & ver & _ & [(_ & -> & ->)|(_ & x & w & rs & ok & _ & _ & -> & _ & _ & _ & _ & _ & ->)]).
    + rewrite bchips_app. assert (E : bchips c (init_head hal) = Mk_c127 reset127 (c_fifo c) (c_acts c)) by (unfold init_head, opt; destruct (has_io_deinit hal); reflexivity). rewrite E. reflexivity.
    + rewrite !bchips_app. assert (E : bchips c (init_head hal) = Mk_c127 reset127 (c_fifo c) (c_acts c)) by (unfold init_head, opt; destruct (has_io_deinit hal); reflexivity). rewrite E, polls_chip.
      destruct ok; cbn; rewrite ?app_nil_r; reflexivity.
  - destruct Sh as (-> & -> & hal & Ho & m & Hm & ->). pose proof (mode_chip H c0 c 0 m Hm ltac:(lia)) as (_ & _ & _ & _ & M5). cbv zeta in *.
    rewrite bchips_app. assert (E : bchips (bchips c m) (opt (has_io_deinit hal) HIoDeinit) = bchips c m) by (unfold opt; destruct (has_io_deinit hal); reflexivity). rewrite E, M5, aired_app. apply app_nil_r.
  - destruct Sh as (-> & -> & ->). unfold bchips. cbn [fold_left bchip]. rewrite burst_acts; [reflexivity|lia|lia|right; cbn; lia].
  - cbn [shape] in Sh. destruct ((q <? -4) || (17 <? q)); destruct Sh as (-> & -> & ->); reflexivity.
  - destruct Sh as (-> & -> & ->). reflexivity.
  - destruct Sh as (-> & -> & hal & Ho & m & Hm & ->). pose proof (mode_chip H c0 c 1 m Hm ltac:(lia)) as (_ & _ & _ & _ & M5). cbv zeta in *.
    rewrite bchips_app. set (c1 := bchips c m) in *. clearbody c1. transitivity (aired (c_acts c1)); [unfold opt; destruct (has_io_init hal); reflexivity|]. rewrite M5, aired_app. apply app_nil_r.
  - destruct (N buf eq_refl).
  - destruct Sh as (-> & -> & hal & Ho & x & Bx & Hx & m & Hm & ->). cbv zeta in *. set (pre := _ ++ opt _ _) in *. rewrite bchips_app.
    assert (Mr : 0 <= (if t =? 0 then 6 else 5) < 8) by (destruct (t =? 0); lia).
    pose proof (mode_chip H c0 _ _ m Hm Mr) as (_ & _ & _ & _ & M5). cbv zeta in *. rewrite M5, aired_app.
    assert (Ra : c_acts (bchips c pre) = c_acts c) by (unfold pre, opt; destruct (has_ant hal); reflexivity). rewrite Ra. unfold started. destruct (t =? 0); apply app_nil_r.
  - destruct Sh as (-> & ptr & n & data & snr & rssi & _ & _ & _ & _ & _ & _ & -> & ->). destruct (0 <? Z.min cap n); reflexivity.
  - destruct Sh as (-> & m1 & rs & m2 & Hm1 & Hm2 & _ & _ & -> & ->). rewrite !bchips_app, polls_chip. rewrite bchips_app in Hm2.
    pose proof (mode_chip H c0 _ _ m1 Hm1 ltac:(lia)) as (_ & _ & _ & _ & M5). pose proof (mode_chip H c0 _ _ m2 Hm2 ltac:(lia)) as (_ & _ & _ & _ & N5). cbv zeta in *.
    rewrite N5, M5, !aired_app. change (c_acts (bchips c [BW 17 [255]])) with (c_acts c). rewrite app_assoc_reverse. apply app_nil_r.
  - destruct Sh as (-> & f & _ & -> & ->). unfold opt. destruct (a_handler s); reflexivity.
  - destruct Sh as (-> & -> & ->). reflexivity.
Qed.
