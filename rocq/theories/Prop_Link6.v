(** Prop_Link6.v -- C75 for the SX1261/2: events and packets on their way from the chip
    through the driver to the application *)
From Verif Require Import LLink.
From Verif Require Import LWant6 Demo DemoRadio DemoSys DemoLink Prop_Radio6 Prop_Down.

Local Ltac enter c0 := match goal with HH : henv_ok ?H, D : does126 ?H ?tr ?h ?s ?o ?v ?s' ?es ?hi ?its |- _ =>
  destruct D as (HU & W & E & Hh & He);
  destruct (used_step H c0 tr h s o v s' es hi its HH HU W E Hh He) as (bs & L & Sh & HK & Rd & Hc) end.
(** sleep() reads no packet *)
Lemma sleep_reads H tr h s v s' es hi its : henv_ok H -> does126 H tr h s PSleep v s' es hi its ->
  answers126 19 its = [] /\ answers126 20 its = [] /\ buffer126 its = [].
Proof.
  intros HH D. enter on126. destruct Sh as (-> & -> & hal & Ho & ->).
  rewrite (likes_ans 19 _ _ L), (likes_ans 20 _ _ L) by reflexivity. destruct (likes_rest _ _ L) as (-> & _ & _). unfold sleep_ops, opt. destruct (has_io_deinit hal); repeat split.
Qed.
Lemma does_more H tr h s o v s' es : henv_ok H -> used126 H tr h s -> rop_wf o -> call126 H o h s = Ok (v, s', es) ->
  exists hi its, does126 H tr h s o v s' es hi its /\ used126 H (tr ++ [(o, v, es)]) (h ++ es) s' /\ forall a b, transcript a = Some b -> transcript (es ++ a) = Some (its ++ b).
Proof.
  intros HH HU W C. destruct (C47_sx126x H h s o v s' es HH (or_introl (ex_intro _ tr HU)) W C) as ((hi & Th) & (its & Ti)). exists hi, its.
  split; [split; [exact HU|]; auto|]. split; [exact (used_more (call126 H) [] _ tr h s o v s' es (proj1 HU) (proj2 HU) W C)|].
  destruct (used_pos H tr h s HH HU) as (hi' & -> & _ & Rd).
  destruct (call_inv H hi' s o v s' es HH W (or_intror Rd) C) as (its' & bs & -> & Fi & _). rewrite (transcript_unparse _ Fi) in Ti. injection Ti as ->.
  intros a b Ta. rewrite transcript_app, Ta by exact Fi. reflexivity.
Qed.
Lemma packet_same its p q : packet126 its p -> packet126 its q -> p = q.
Proof.
  intros (n & off & raw & snr & z & A & B & C & D & F & G) (n' & off' & raw' & snr' & z' & A' & B' & C' & D' & F' & G'). rewrite D in D'. injection D' as <- <- <-. rewrite B in B'. injection B' as _ B'.
  destruct p, q. cbn in *. congruence.
Qed.

(** Every event of the radio the stack handles was read from the chip; the packet it then
    reads is the one in the chip, and whatever the application is told to have been
    accepted is such a packet, reported as received without error, and authentic. *)
Theorem C75_sx126x E H ops tr w dtr h s tr1 m v es tr2 : env_ok E -> henv_ok H -> Forall op_wf ops -> exec E world0 ops tr w ->
  linked tr dtr -> rexec (call126 H) [] Sx126x.d126_0 dtr h s -> tr = tr1 ++ (OIrq m, v, es) :: tr2 ->
  exists ops1 w1 w2 dtr1 l ds dtr2 irq its, Forall op_wf ops1 /\ exec E world0 ops1 tr1 w1 /\ step E w1 (OIrq m) = Some (v, es, w2) /\
    dtr = dtr1 ++ ((PIrq, RvNum m, l) :: ds) ++ dtr2 /\ linked tr1 dtr1 /\ transcript l = Some irq /\ transcript (bus ds) = Some its /\
    signals126 irq m /\
    (receives w1 m -> packet126 its (received E w1)) /\
    (forall t view, In (ERR_NO, t, view) (callbacks es) -> receives w1 m /\ accepted E w1 w2 (received E w1) t view) /\
    (forall p, receives w1 m -> packet126 its p -> hands_over E w1 es p).
Proof.
  intros HE HH W X L XD Q. destruct (irq_split E ops tr w dtr tr1 m v es tr2 HE W X L Q) as (ops1 & w1 & w2 & dtr1 & r & l & ds & dtr2 & W1 & X1 & R1 & Wm & S1 & Ed & L1 & Wd & Iu & F).
  rewrite Ed in XD. apply rexec_app_inv in XD as (h1 & s1 & XD1 & XD2). apply rexec_app_inv in XD2 as (h2 & s2 & XD2 & _). apply rexec_one in XD2 as (s3 & C1 & XD2).
  assert (HU : used126 H dtr1 h1 s1) by (split; assumption).
  destruct (does_more H dtr1 h1 s1 PIrq r s3 l HH HU I C1) as (hi & irq & D1 & HU1 & _).
  destruct (C54_sx126x H dtr1 h1 s1 r s3 l hi irq HH D1) as (x & y & Bx & By & A18 & Er & Uc & Cl).
  assert (Tl : transcript l = Some irq) by apply D1. pose proof (parse_user m l None irq Tl Iu) as Iu'. rewrite Uc in Iu'. destruct (handler dtr1); [|destruct Iu']. destruct Iu' as [Em|[]].
  assert (RT : exists its, transcript (bus ds) = Some its /\ (receives w1 m -> packet126 its (received E w1))).
  { destruct (read_then_sleep E w1 m v es w2 HE R1 Wm S1) as [(Rc & Ef)|(Rc & _)].
    - rewrite Ef in F. inversion F as [|e1 t1 ef1 ds1 Sv1 F1 Q1 Q2]; subst. inversion F1 as [|e2 t2 ef2 ds2 Sv2 F2 Q1 Q2]; subst. inversion F2; subst. inversion Sv1 as [| | | | | | |p lr|]; subst. inversion Sv2 as [| | | | | | | |vs ls]; subst.
      apply rexec_one in XD2 as (s4 & C2 & XD2). apply rexec_one in XD2 as (s5 & C3 & _).
      destruct (does_more H _ _ _ (PRead 255) _ _ _ HH HU1 ltac:(cbv; intuition discriminate) C2) as (hi2 & i2 & D2 & HU2 & T2).
      destruct (does_more H _ _ _ PSleep _ _ _ HH HU2 I C3) as (hi3 & i3 & D3 & _ & T3).
      exists (i2 ++ i3). split.
      { unfold bus. cbn [flat_map snd]. rewrite app_nil_r. apply T2. rewrite <- (app_nil_r ls), <- (app_nil_r i3). apply T3. reflexivity. }
      intros _. destruct (C53_sx126x H _ _ _ 255 _ _ _ hi2 i2 HH D2) as (n & off & data & raw & snr & z & Ep & A19 & Bu & A20 & Ln & _). injection Ep as Ep.
      destruct (sleep_reads H _ _ _ _ _ _ hi3 i3 HH D3) as (N19 & N20 & Nb). rewrite Ep. unfold packet126. exists n, off, raw, snr, z. cbn [rx_data rx_rssi rx_snr].
      unfold answers126, buffer126 in *. rewrite !flat_map_app, A19, Bu, A20, N19, N20, Nb. cbn [app]. repeat split. exact Ln.
    - cut (exists its, transcript (bus ds) = Some its); [intros (its & T); exists its; split; [exact T|intro Rc'; destruct (Rc Rc')]|].
      assert (G : forall ds tr h s h' s', used126 H tr h s -> Forall (fun t => rop_wf (fst (fst t))) ds -> rexec (call126 H) h s ds h' s' -> exists its, transcript (bus ds) = Some its).
      { clear - HH. induction ds as [|[[o v] es] ds IH]; intros tr h s h' s' HU Fw XD; [exists []; reflexivity|]. inversion Fw; subst. apply rexec_one in XD as (s1 & C & XD).
        destruct (does_more H tr h s o v s1 es HH HU ltac:(assumption) C) as (_ & i & _ & HU' & T). destruct (IH _ _ _ _ _ HU' ltac:(assumption) XD) as (j & Tj). exists (i ++ j). apply T, Tj. }
      eapply G; [exact HU1| |exact XD2]. pose proof (linked_wf E ops tr w dtr HE W X L) as (Fa & _). rewrite Ed in Fa. apply Forall_app in Fa as [_ Fa]. apply Forall_app in Fa as [Fa _]. inversion Fa; assumption. }
  destruct RT as (its & Ti & Pk). exists ops1, w1, w2, dtr1, l, ds, dtr2, irq, its. split; [exact W1|]. split; [exact X1|]. split; [exact S1|].
  split; [rewrite Ed, Er, <- Em; reflexivity|]. split; [exact L1|]. split; [exact Tl|]. split; [exact Ti|]. split; [exists x, y; cbv zeta in *; auto|]. split; [exact Pk|].
  split; [intros t view I; destruct (C10_downlink_authentic E w1 (OIrq m) v es w2 t view HE R1 Wm S1 I) as (m' & Q' & Rc & _ & A); injection Q' as <-; split; [exact Rc|]; unfold accepted; cbv zeta in A |- *; tauto|].
  intros p Rc Pp. rewrite (packet_same its p _ Pp (Pk Rc)). intros cnt cf hf fo frm J N Lf Ed'. destruct (C11_genuine_delivered E w1 m cnt cf hf fo frm HE R1 Wm Rc J N Lf Ed') as (_ & G). apply (G v es w2 S1).
Qed.
(** an uplink; the chip reports TxDone, then a timeout, then a packet: a confirmed
    downlink on port 7 *)
Local Definition frame6 : list Z := dl 9 true 0 [] (Some (7, [11; 22])).
Local Definition t6 : list (Z * list Z) := [(29, [0; 0; 0; 7]); (19, [0; len frame6; 5]); (30, [0; 0] ++ frame6); (20, [0; 100; 40; 100])].
Local Definition E6 : env := with_radio 7 (Mk_rxpkt frame6 (-50) 10) (demo [5; 9] []).
Local Definition H6 : henv := with_flags 18 [[0; 0; 1]; [0; 2; 0]; [0; 0; 2]] (sim126 t6).
Example C75_sx126x_case : exists E H ops tr w dtr h s tr1 m v es, env_ok E /\ henv_ok H /\ Forall op_wf ops /\ exec E world0 ops tr w /\
  linked tr dtr /\ rexec (call126 H) [] Sx126x.d126_0 dtr h s /\ tr = tr1 ++ [(OIrq m, v, es)] /\
  callbacks es = [(ERR_NO, 5, Mk_dlview (Some [11; 22]) 2 7 (-50) 10)].
Proof.
  assert (Q : coupled (call126 H6) Sx126x.d126_0 cfg E6 (abp 0 0 ++ to_rx2) 2 (told 5 [11; 22] 7 (-50) 10) = true) by (vm_compute; reflexivity).
  destruct (coupled_ok _ _ _ _ _ _ _ Q) as (ops & tr & w & dtr & h & s & tr1 & v & es & A1 & A2 & A3 & A4 & A5 & A6). exists E6, H6, ops, tr, w, dtr, h, s, tr1, 2, v, es.
  split; [apply with_radio_ok; vm_compute; reflexivity|]. split; [apply with_flags_ok, sim126_ok|]. repeat (split; [assumption|]). exact (told_ok _ _ _ _ _ _ A6).
Qed.
Print Assumptions C75_sx126x.
