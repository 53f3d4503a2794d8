(** Prop_Link7.v -- C75 for the SX1276: events and packets on their way from the chip
    through the driver to the application *)
From Verif Require Import LLink.
From Verif Require Import LWant7 LAir7 Demo DemoRadio DemoSys DemoLink Prop_Radio7 Prop_Down.

Local Ltac enter c0 := match goal with HH : henv_ok ?H, D : does127 ?H ?tr ?h ?s ?o ?v ?s' ?es ?hi ?its |- _ =>
  destruct D as (HU & W & E & Hh & He);
  destruct (used_step H c0 tr h s o v s' es hi its HH HU W E Hh He) as (bs & L & Sh & HK & Hc) end.
(** sleep() reads no packet *)
Lemma sleep_reads H tr h s v s' es hi its a : henv_ok H -> does127 H tr h s PSleep v s' es hi its -> In a [0; 16; 19; 25; 26] -> reads127 a its = [].
Proof.
  intros HH D I. enter on127. assert (B : 0 <= a < 128) by (cbn in I; lia). destruct (like_reads a _ _ L B) as [-> _].
  destruct Sh as (-> & -> & hal & Ho & m & Hm & ->). destruct Hm as (x & y & _ & _ & _ & _ & ->). unfold opt. repeat (destruct I as [<-|I]; [destruct (has_io_deinit hal); reflexivity|]). destruct I.
Qed.
Lemma app_mid {A} (a b pre : list A) x post : a ++ b = pre ++ x :: post ->
  (exists post', a = pre ++ x :: post') \/ exists pre', pre = a ++ pre' /\ b = pre' ++ x :: post.
Proof.
  revert pre. induction a as [|y a IH]; intros pre Q; cbn in Q; [right; exists pre; split; [reflexivity|exact Q]|]. destruct pre as [|z pre]; cbn in Q.
  - injection Q as <- <-. left. exists a. reflexivity.
  - injection Q as <- Q. destruct (IH pre Q) as [(p & ->)|(p & -> & E)]; [left; exists p; reflexivity|right; exists p; split; [reflexivity|exact E]].
Qed.
Lemma sleep_fifo H tr h s v s' es hi its pre x post : henv_ok H -> does127 H tr h s PSleep v s' es hi its -> its = pre ++ Tr x :: post -> hd 1 (mosi x) = 0 -> False.
Proof.
  intros HH D Q Hx. enter on127. subst its. apply Forall2_app_inv_r in L as (b1 & b2 & L1 & L2 & Eb). inversion L2 as [|b ? b3 ? Hb L3]; subst.
  assert (X : exists vs, b = BR 0 vs).
  { destruct b as [a' vs'|a' vs'|e]; cbn [like] in Hb; [destruct Hb as [Hb ?]; rewrite Hb in Hx; cbn [hd] in Hx; lia| |tauto]. destruct x as [|[? ?] ?]; [tauto|]. destruct Hb as (-> & _ & _). cbn in Hx. subst. eauto. }
  destruct X as [vs ->]. destruct Sh as (_ & _ & hal & Ho & m & Hm & Eb). destruct Hm as (y & z & _ & _ & _ & _ & ->).
  assert (I : In (BR 0 vs) (b1 ++ BR 0 vs :: b3)) by (apply in_or_app; right; left; reflexivity). rewrite Eb in I. unfold opt in I. destruct (has_io_deinit hal); cbn in I; intuition discriminate.
Qed.
Lemma read_start H tr h s cap v s' es hi its ptr pre x post : henv_ok H -> does127 H tr h s (PRead cap) v s' es hi its -> reads127 16 its = [ptr] ->
  its = pre ++ Tr x :: post -> hd 1 (mosi x) = 0 -> writes127 13 pre = [ptr].
Proof.
  intros HH D R16 Q Hx. enter on127. destruct (like_reads 16 _ _ L ltac:(lia)) as [R _]. rewrite R16 in R. destruct Sh as (_ & ptr' & n & data & snr & rssi & _ & _ & _ & _ & _ & _ & _ & Eb').
  assert (P : ptr' = ptr) by (rewrite Eb' in R; destruct (0 <? Z.min cap n); cbn in R; injection R as R; symmetry; exact R). clear R Hc. subst ptr' its.
  apply Forall2_app_inv_r in L as (b1 & b2 & L1 & L2 & Eb). destruct (like_reads 13 _ _ L1 ltac:(lia)) as [_ ->]. rewrite Eb' in Eb. clear Eb'. rename Eb into Eb'. inversion L2 as [|b ? b3 ? Hb L3]; subst.
  assert (X : exists vs, b = BR 0 vs).
  { destruct b as [a' vs'|a' vs'|e]; cbn [like] in Hb; [destruct Hb as [Hb ?]; rewrite Hb in Hx; cbn [hd] in Hx; lia| |tauto]. destruct x as [|[? ?] ?]; [tauto|]. destruct Hb as (-> & _ & _). cbn in Hx. subst. eauto. }
  destruct X as [vs ->]. destruct (0 <? Z.min cap n).
  - do 3 (destruct b1 as [|? b1]; [discriminate|]; injection Eb' as <- Eb'). destruct b1 as [|? b1]; [reflexivity|]. injection Eb' as <- Eb'. do 2 (destruct b1 as [|? b1]; [discriminate|]; injection Eb' as <- Eb'). destruct b1; discriminate.
  - do 5 (destruct b1 as [|? b1]; [discriminate|]; injection Eb' as <- Eb'). destruct b1; discriminate.
Qed.
Lemma does_more H tr h s o v s' es : henv_ok H -> used127 H tr h s -> rop_wf o -> call127 H o h s = Ok (v, s', es) ->
  exists hi its, does127 H tr h s o v s' es hi its /\ used127 H (tr ++ [(o, v, es)]) (h ++ es) s' /\ forall a b, transcript a = Some b -> transcript (es ++ a) = Some (its ++ b).
Proof.
  intros HH HU W C. destruct (C47_sx127x H h s o v s' es HH (or_introl (ex_intro _ tr HU)) W C) as ((hi & Th) & (its & Ti)). exists hi, its.
  split; [split; [exact HU|]; auto|]. split; [exact (used_more (call127 H) [] _ tr h s o v s' es (proj1 HU) (proj2 HU) W C)|].
  destruct (used_pos H tr h s HH HU) as (hi' & -> & Fh & Rd).
  destruct (call_inv H on127 hi' s o v s' es HH Fh W (or_intror Rd) C) as (its' & bs & -> & Fi & _). rewrite (transcript_unparse _ Fi) in Ti. injection Ti as ->.
  intros a b Ta. rewrite transcript_app, Ta by exact Fi. reflexivity.
Qed.
Lemma packet_same off its p q : packet127 off its p -> packet127 off its q -> p = q.
Proof.
  intros (ptr & n & raw & snr & A & B & C & D & F & G & R & S & _) (ptr' & n' & raw' & snr' & A' & B' & C' & D' & F' & G' & R' & S' & _). rewrite F in F'. injection F' as <-. rewrite G in G'. injection G' as <-.
  destruct p, q. cbn in *. congruence.
Qed.

(** Every event of the radio the stack handles was read from the chip; the packet it then
    reads is the one in the chip, and whatever the application is told to have been
    accepted is such a packet, reported as received without error, and authentic. *)
Theorem C75_sx127x E H ops tr w dtr h s tr1 m v es tr2 : env_ok E -> henv_ok H -> Forall op_wf ops -> exec E world0 ops tr w ->
  linked tr dtr -> rexec (call127 H) [] Sx127x.d127_0 dtr h s -> tr = tr1 ++ (OIrq m, v, es) :: tr2 ->
  exists ops1 w1 w2 dtr1 l ds dtr2 irq its, Forall op_wf ops1 /\ exec E world0 ops1 tr1 w1 /\ step E w1 (OIrq m) = Some (v, es, w2) /\
    dtr = dtr1 ++ ((PIrq, RvNum m, l) :: ds) ++ dtr2 /\ linked tr1 dtr1 /\ transcript l = Some irq /\ transcript (bus ds) = Some its /\
    signals127 irq m /\
    (receives w1 m -> packet127 (offset dtr1) its (received E w1)) /\
    (forall t view, In (ERR_NO, t, view) (callbacks es) -> receives w1 m /\ accepted E w1 w2 (received E w1) t view) /\
    (forall p, receives w1 m -> packet127 (offset dtr1) its p -> hands_over E w1 es p).
Proof.
  intros HE HH W X L XD Q. destruct (irq_split E ops tr w dtr tr1 m v es tr2 HE W X L Q) as (ops1 & w1 & w2 & dtr1 & r & l & ds & dtr2 & W1 & X1 & R1 & Wm & S1 & Ed & L1 & Wd & Iu & F).
  rewrite Ed in XD. apply rexec_app_inv in XD as (h1 & s1 & XD1 & XD2). apply rexec_app_inv in XD2 as (h2 & s2 & XD2 & _). apply rexec_one in XD2 as (s3 & C1 & XD2).
  assert (HU : used127 H dtr1 h1 s1) by (split; assumption).
  destruct (does_more H dtr1 h1 s1 PIrq r s3 l HH HU I C1) as (hi & irq & D1 & HU1 & _).
  destruct (C54_sx127x H dtr1 h1 s1 r s3 l hi irq HH D1) as (f & g & Bf & R18 & Er & Uc & W18 & Cl & _).
  assert (Tl : transcript l = Some irq) by apply D1. pose proof (parse_user m l None irq Tl Iu) as Iu'. rewrite Uc in Iu'. destruct (handler dtr1); [|destruct Iu']. destruct Iu' as [Em|[]].
  assert (RT : exists its, transcript (bus ds) = Some its /\ (receives w1 m -> packet127 (offset dtr1) its (received E w1))).
  { destruct (read_then_sleep E w1 m v es w2 HE R1 Wm S1) as [(Rc & Ef)|(Rc & _)].
    - rewrite Ef in F. inversion F as [|e1 t1 ef1 ds1 Sv1 F1 Q1 Q2]; subst. inversion F1 as [|e2 t2 ef2 ds2 Sv2 F2 Q1 Q2]; subst. inversion F2; subst. inversion Sv1 as [| | | | | | |p lr|]; subst. inversion Sv2 as [| | | | | | | |vs ls]; subst.
      apply rexec_one in XD2 as (s4 & C2 & XD2). apply rexec_one in XD2 as (s5 & C3 & _).
      destruct (does_more H _ _ _ (PRead 255) _ _ _ HH HU1 ltac:(cbv; intuition discriminate) C2) as (hi2 & i2 & D2 & HU2 & T2).
      destruct (does_more H _ _ _ PSleep _ _ _ HH HU2 I C3) as (hi3 & i3 & D3 & _ & T3).
      exists (i2 ++ i3). split.
      { unfold bus. cbn [flat_map snd]. rewrite app_nil_r. apply T2. rewrite <- (app_nil_r ls), <- (app_nil_r i3). apply T3. reflexivity. }
      intros _. destruct (C53_sx127x_partial H on127 _ _ _ 255 _ _ _ hi2 i2 HH D2) as (ptr & n & data & raw & snr & Ep & R0 & R16 & R19 & R25 & R26 & Ln & _). injection Ep as Ep.
      assert (N : forall a, In a [0; 16; 19; 25; 26] -> reads127 a (i2 ++ i3) = reads127 a i2).
      { intros a Ia. unfold reads127. rewrite flat_map_app. fold (reads127 a i3). rewrite (sleep_reads H _ _ _ _ _ _ hi3 i3 a HH D3 Ia). apply app_nil_r. }
      assert (Eo : forall r, offset (dtr1 ++ [(PIrq, r, l)]) = offset dtr1) by (intro r; unfold offset; rewrite fold_left_app; reflexivity). rewrite Eo in Ep.
      rewrite Ep. unfold packet127. exists ptr, n, raw, snr. cbn [rx_data rx_rssi rx_snr]. rewrite !N by (cbn; tauto). repeat (split; [assumption || reflexivity|]).
      intros pre x post Qp Hx. destruct (app_mid _ _ _ _ _ Qp) as [(post' & Q1)|(pre' & _ & Q1)].
      + exact (read_start H _ _ _ _ _ _ _ _ _ ptr pre x post' HH D2 R16 Q1 Hx).
      + destruct (sleep_fifo H _ _ _ _ _ _ _ _ pre' x post HH D3 Q1 Hx).
    - cut (exists its, transcript (bus ds) = Some its); [intros (its & T); exists its; split; [exact T|intro Rc'; destruct (Rc Rc')]|].
      assert (G : forall ds tr h s h' s', used127 H tr h s -> Forall (fun t => rop_wf (fst (fst t))) ds -> rexec (call127 H) h s ds h' s' -> exists its, transcript (bus ds) = Some its).
      { clear - HH. induction ds as [|[[o v] es] ds IH]; intros tr h s h' s' HU Fw XD; [exists []; reflexivity|]. inversion Fw; subst. apply rexec_one in XD as (s1 & C & XD).
        destruct (does_more H tr h s o v s1 es HH HU ltac:(assumption) C) as (_ & i & _ & HU' & T). destruct (IH _ _ _ _ _ HU' ltac:(assumption) XD) as (j & Tj). exists (i ++ j). apply T, Tj. }
      eapply G; [exact HU1| |exact XD2]. pose proof (linked_wf E ops tr w dtr HE W X L) as (Fa & _). rewrite Ed in Fa. apply Forall_app in Fa as [_ Fa]. apply Forall_app in Fa as [Fa _]. inversion Fa; assumption. }
  destruct RT as (its & Ti & Pk). exists ops1, w1, w2, dtr1, l, ds, dtr2, irq, its. split; [exact W1|]. split; [exact X1|]. split; [exact S1|].
  split; [rewrite Ed, Er, <- Em; reflexivity|]. split; [exact L1|]. split; [exact Tl|]. split; [exact Ti|]. split; [exists f, g; auto|]. split; [exact Pk|].
  split; [intros t view I; destruct (C10_downlink_authentic E w1 (OIrq m) v es w2 t view HE R1 Wm S1 I) as (m' & Q' & Rc & _ & A); injection Q' as <-; split; [exact Rc|]; unfold accepted; cbv zeta in A |- *; tauto|].
  intros p Rc Pp. rewrite (packet_same _ its p _ Pp (Pk Rc)). intros cnt cf hf fo frm J N Lf Ed'. destruct (C11_genuine_delivered E w1 m cnt cf hf fo frm HE R1 Wm Rc J N Lf Ed') as (_ & G). apply (G v es w2 S1).
Qed.
(** an uplink; the chip reports TxDone, then a timeout, then a packet: a confirmed
    downlink on port 7 *)
Local Definition frame7 : list Z := dl 9 true 0 [] (Some (7, [11; 22])).
Local Definition t7 : list (Z * list Z) := [(66, [18]); (59, [0]); (44, [1]); (16, [0]); (19, [len frame7]); (0, frame7); (25, [40]); (26, [107])].
Local Definition E7 : env := with_radio 4294967295 (Mk_rxpkt frame7 (-50) 10) (demo [5; 9] []).
Local Definition H7 : henv := with_flags 18 [[8]; [128]; [64]] (sim127 t7 on127).
Example C75_sx127x_case : exists E H ops tr w dtr h s tr1 m v es, env_ok E /\ henv_ok H /\ Forall op_wf ops /\ exec E world0 ops tr w /\
  linked tr dtr /\ rexec (call127 H) [] Sx127x.d127_0 dtr h s /\ tr = tr1 ++ [(OIrq m, v, es)] /\
  callbacks es = [(ERR_NO, 5, Mk_dlview (Some [11; 22]) 2 7 (-50) 10)].
Proof.
  assert (Q : coupled (call127 H7) Sx127x.d127_0 cfg E7 (OSetEirp 15 :: abp 0 0 ++ to_rx2) 2 (told 5 [11; 22] 7 (-50) 10) = true) by (vm_compute; reflexivity).
  destruct (coupled_ok _ _ _ _ _ _ _ Q) as (ops & tr & w & dtr & h & s & tr1 & v & es & A1 & A2 & A3 & A4 & A5 & A6). exists E7, H7, ops, tr, w, dtr, h, s, tr1, 2, v, es.
  split; [apply with_radio_ok; vm_compute; reflexivity|]. split; [apply with_flags_ok, sim127_ok|]. repeat (split; [assumption|]). exact (told_ok _ _ _ _ _ _ A6).
Qed.
Print Assumptions C75_sx127x.
