(** Prop_Sys6.v -- C67 for the SX1261/2: what goes on the air when the stack works the
    driver *)
From Verif Require Import LSys.
From Verif Require Import LWant6 Demo DemoRadio DemoSys Prop_Radio6.

(** the radio is started by tx(), rx() and rand() only *)
Lemma still_acts c s o v s' bs : shape s o v s' bs -> (forall buf, o <> PTx buf) -> (forall n symb t, o <> PRx n symb t) -> o <> PRand -> k_acts (bchips c bs) = k_acts c.
Proof.
  intros Sh N1 N2 N3. destruct o as [hal d| |f|p|b|p|buf|n symb t|cap| | |b].
  - destruct Sh as (e0 & e1 & _ & _ & _ & _ & ->). rewrite !bchips_app.
    assert (E1 : k_acts (bchips c (init_head hal d)) = k_acts c) by (unfold init_head, tcxo_ops, opt; destruct (has_io_deinit hal), (Sx126x.use_tcxo d); reflexivity). rewrite <- E1.
    set (c1 := bchips c (init_head hal d)). clearbody c1. destruct ((e0 =? 0) && (e1 =? 0)); [|reflexivity]. unfold init_tail, sleep_ops, opt. destruct (has_io_deinit hal); reflexivity.
  - destruct Sh as (-> & -> & hal & Ho & ->). rewrite sleep_chip. reflexivity.
  - destruct Sh as (-> & -> & ->). reflexivity.
  - destruct Sh as (d & _ & Sh). destruct (in_range (Sx126x.is_hp d) p); destruct Sh as (_ & _ & Sh); [|subst; reflexivity]. destruct (Sx126x.is_hp d); [destruct Sh as (g & _ & ->); reflexivity|]. subst bs. destruct (p =? 15); reflexivity.
  - destruct Sh as (-> & -> & ->). destruct b; reflexivity.
  - destruct Sh as (-> & -> & hal & Ho & ->). unfold opt. destruct (has_io_init hal); reflexivity.
  - destruct (N1 buf eq_refl).
  - destruct (N2 n symb t eq_refl).
  - destruct Sh as (-> & n & off & data & p0 & p1 & p2 & _ & _ & _ & _ & _ & _ & _ & -> & ->). reflexivity.
  - destruct (N3 eq_refl).
  - destruct Sh as (-> & x & y & _ & _ & -> & ->). unfold opt. destruct (Sx126x.b_handler s); reflexivity.
  - destruct Sh as (-> & -> & ->). reflexivity.
Qed.
Lemma rand_acts c s v s' bs : shape s PRand v s' bs -> exists m symb n, k_acts (bchips c bs) = k_acts c ++ [Listen m Continuous symb n].
Proof.
  intros (-> & hal & Ho & g & r0 & r1 & r2 & r3 & _ & _ & _ & _ & _ & -> & ->). rewrite !bchips_app, sleep_chip. cbn [k_acts]. change (bchips ?c [CG _ _ _]) with c. rewrite rx_chip. cbn [k_acts].
  rewrite (proj2 (pkt_kept _ _ _ _ _)). eauto.
Qed.
Lemma sys_run H c0 dtr h s : henv_ok H -> used126 H dtr h s -> forall hal d l dtr' res, dtr = (PInit hal d, RvBool true, l) :: dtr' ->
  safe ask0 res -> Forall2 served res (filter by_stack dtr') ->
  exists hi acts, transcript h = Some hi /\ rel (can126 (hp dtr)) (asks ask0 res) (wants dtr) /\ k_acts (chip126 c0 hi) = k_acts c0 ++ acts /\
    Forall2 (on_air 25 (can126 (hp dtr))) (doings 0 no_params 0 res) acts.
Proof.
  intro HH. revert dtr h s. apply (rexec_ind2 H (fun dtr h s => forall hal d l dtr' res, dtr = (PInit hal d, RvBool true, l) :: dtr' ->
    safe ask0 res -> Forall2 served res (filter by_stack dtr') ->
    exists hi acts, transcript h = Some hi /\ rel (can126 (hp dtr)) (asks ask0 res) (wants dtr) /\ k_acts (chip126 c0 hi) = k_acts c0 ++ acts /\
      Forall2 (on_air 25 (can126 (hp dtr))) (doings 0 no_params 0 res) acts)).
  - intros o v s' es Hi W E hal d l dtr' res Q S F. injection Q as -> -> -> <-. cbn in F. inversion F; subst.
    destruct (call_inv H [] Sx126x.d126_0 _ _ s' l HH W (or_introl eq_refl) E) as (its & bs & -> & Fi & L & Sh). exists its, []. split; [apply transcript_unparse, Fi|].
    split; [split; [reflexivity|]; repeat (split; [reflexivity|]); split; intros; discriminate|]. split; [|constructor].
    rewrite (likes_chip _ _ L), app_nil_r. eapply still_acts; [exact Sh| | |]; intros; discriminate.
  - intros tr h s o v s' es HU IH W E hal d l dtr' res Q S F.
    assert (T : exists tr', tr = (PInit hal d, RvBool true, l) :: tr' /\ dtr' = tr' ++ [(o, v, es)]).
    { destruct tr as [|t tr']; [destruct HU as (_ & _ & ? & ? & ? & ? & ? & X); discriminate X|]. cbn in Q. injection Q as -> <-. exists tr'. auto. }
    destruct T as (tr' & Etr & ->). clear Q.
    destruct (C47_sx126x H h s o v s' es HH (or_introl (ex_intro _ tr HU)) W E) as ((hi & Th) & (its & Ti)).
    assert (D : does126 H tr h s o v s' es hi its) by (split; [exact HU|]; auto).
    assert (TA : transcript (h ++ es) = Some (hi ++ its)).
    { destruct (used_pos H tr h s HH HU) as (hi' & -> & Fi & _). rewrite (transcript_unparse _ Fi) in Th. injection Th as ->. rewrite transcript_app, Ti by exact Fi. reflexivity. }
    assert (WS : wants (tr ++ [(o, v, es)]) = see (wants tr) o v) by (unfold wants; rewrite fold_left_app; reflexivity).
    destruct (used_step H c0 tr h s o v s' es hi its HH HU W E Th Ti) as (bs & Lk & Sh & HK & Rd & Hc).
    assert (HPS : hp (tr ++ [(o, v, es)]) = hp tr \/ exists a b, o = PInit a b) by (rewrite hp_snoc; destruct o; eauto).
    destruct (by_stack (o, v, es)) eqn:B.
    + destruct (served_snoc _ _ _ B F) as (res0 & e & -> & F0 & Se). apply safe_app in S as (S0 & (G & _)). destruct (IH _ _ _ _ _ Etr S0 F0) as (hi' & acts & Th' & R & A & FA). clear IH Etr.
      assert (hi' = hi) by congruence. subst hi'. exists (hi ++ its).
      assert (HP : hp (tr ++ [(o, v, es)]) = hp tr) by (destruct HPS as [X|(a & b & ->)]; [exact X|inversion Se]). rewrite HP, WS, asks_app.
      assert (R' : rel (can126 (hp tr)) (asks (asks ask0 res0) [e]) (see (wants tr) o v)).
      { eapply rel_step; [exact R|exact Se|]. intros p -> C. inversion Se; subst. destruct (C50_sx126x H c0 tr h s p v s' es hi its HH D) as (V & _). rewrite V. unfold can126 in C. destruct (hp tr); rewrite C; reflexivity. }
      pose proof (doings_snoc res0 e cur0) as DS. cbn [cur0 u_freq u_par u_power] in DS. rewrite DS. destruct (cur_asks res0) as (U1 & U2 & U3). cbv zeta in *.
      set (u := fold_left cur_step res0 cur0) in *. set (q := asks ask0 res0) in *. destruct R as (R1 & R2 & R3 & R4 & R5 & R6).
      assert (None_added : (forall buf, o <> PTx buf) -> (forall n symb t, o <> PRx n symb t) -> o <> PRand -> adds u e = [] ->
        exists acts0, transcript (h ++ es) = Some (hi ++ its) /\ rel (can126 (hp tr)) (asks q [e]) (see (wants tr) o v) /\ k_acts (chip126 c0 (hi ++ its)) = k_acts c0 ++ acts0 /\
          Forall2 (on_air 25 (can126 (hp tr))) (doings 0 no_params 0 res0 ++ adds u e) acts0).
      { intros N1 N2 N3 ->. exists acts. rewrite app_nil_r. repeat (split; [assumption|]). split; [|exact FA]. rewrite Hc, (still_acts _ _ _ _ _ _ Sh N1 N2 N3). exact A. }
      inversion Se; subst; try (apply None_added; [intros; discriminate|intros; discriminate|discriminate|reflexivity]).
      * destruct (rand_acts (chip126 c0 hi) s _ s' bs Sh) as (m & symb & sz & EA). exists (acts ++ [Listen m Continuous symb sz]). repeat (split; [assumption|]). split; [rewrite Hc, EA, A, app_assoc; reflexivity|].
        apply Forall2_app; [exact FA|]. repeat constructor.
      * destruct G as (_ & _ & (f & Ef & Lf) & (dr & Dr & Ep) & (pw & Epw) & _). rewrite Ef in R3. rewrite Ep in R4.
        destruct (K_started H c0 tr h s (PTx b) v s' es hi its _ HH D I R4) as (m & EA & _ & _ & LD & _). destruct (C62_sx126x H c0 tr h s b v s' es hi its _ HH D R1 R4) as (m' & EA' & AK).
        assert (m' = m) by (rewrite EA in EA'; apply app_inv_head in EA'; injection EA' as ->; reflexivity). subst m'. destruct AK as (K1 & K2 & K3 & K4 & K5 & K6). rewrite R2 in K4.
        exists (acts ++ [Air m b]). repeat (split; [assumption|]). split; [rewrite EA, A, app_assoc; reflexivity|]. apply Forall2_app; [exact FA|]. constructor; [|constructor].
        cbn [adds on_air]. rewrite (U1 _ Ef), (U2 _ Ep), (U3 _ Epw). split; [reflexivity|]. split; [exact Lf|]. split; [apply K5; [exact R3|lia]|]. split; [exists dr; split; [reflexivity|]; apply (lora_air dr false (lora dr false)); auto|].
        intro C. apply K6, R6; [exact Epw|exact C].
      * destruct G as (-> & -> & -> & (f & Ef & Lf) & (dr & Dr & Ep)). rewrite Ef in R3. rewrite Ep in R4.
        destruct (K_started H c0 tr h s (PRx 255 8 0) v s' es hi its _ HH D I R4) as (m & EA & _ & _ & LD & _). destruct (C63_sx126x_partial H c0 tr h s 255 8 0 v s' es hi its _ HH D R1 R4 ltac:(lia) ltac:(lia)) as (m' & EA' & AK).
        assert (m' = m) by (rewrite EA in EA'; apply app_inv_head in EA'; injection EA' as ->; reflexivity). subst m'. destruct AK as (K1 & K2 & K3 & K4 & K5 & K6). rewrite R2 in K4.
        eexists (acts ++ [_]). repeat (split; [assumption|]). split; [rewrite EA', A, app_assoc; reflexivity|]. apply Forall2_app; [exact FA|]. constructor; [|constructor].
        cbn [adds on_air]. rewrite (U1 _ Ef), (U2 _ Ep). repeat (split; [first [reflexivity|exact Lf]|]). split; [apply K5; [exact R3|lia]|]. exists dr. split; [reflexivity|]. apply (lora_air dr true (lora dr true)); auto.
    + rewrite filter_snoc, B, app_nil_r in F. destruct (IH _ _ _ _ _ Etr S F) as (hi' & acts & Th' & R & A & FA). assert (hi' = hi) by congruence. subst hi'.
      unfold by_stack in B. apply Bool.negb_false_iff in B. cbn [fst] in B. exists (hi ++ its), acts. assert (HP : hp (tr ++ [(o, v, es)]) = hp tr) by (destruct HPS as [X|(a & b & ->)]; [exact X|discriminate B]). rewrite HP, WS.
      split; [exact TA|]. split; [apply rel_beside; assumption|]. split; [|exact FA]. rewrite Hc, (still_acts _ _ _ _ _ _ Sh); [exact A| | |]; intros; intro; subst o; discriminate B.
Qed.
(** ** C67: everything the radio transmits and listens to is what the calls to the stack
    and the radio's events are to lead to, in order and with the LoRaWAN settings *)
Theorem C67_sx126x_partial : forall E H c0 ops tr w dtr h s, env_ok E -> henv_ok H -> Forall op_wf ops -> exec E world0 ops tr w ->
  drives (all_evs tr) dtr -> rexec (call126 H) [] Sx126x.d126_0 dtr h s ->
  exists hi win l acts, transcript h = Some hi /\ meant E tr w win l /\ k_acts (chip126 c0 hi) = k_acts c0 ++ acts /\ Forall2 (on_air 25 (can126 (hp dtr))) l acts.
Proof.
  intros E H c0 ops tr w dtr h s HE HH Ho Hx (hal & d & l & dtr' & -> & W & F) X. pose proof (run_safe E ops tr w HE Ho Hx) as S.
  assert (U : used126 H ((PInit hal d, RvBool true, l) :: dtr') h s) by (split; [exact X|]; split; [constructor; [exact W|eapply drives_wf; eassumption]|eauto 8]).
  destruct (sys_run H c0 _ h s HH U _ _ _ _ _ eq_refl S F) as (hi & acts & T & _ & A & FA). destruct (run_meant E ops tr w HE Ho Hx) as (win & M & _). exists hi, win, (asked_of tr), acts. split; [exact T|]. split; [exact M|]. split; [exact A|]. unfold asked_of. rewrite <- doings_filter. exact FA.
Qed.
Print Assumptions C67_sx126x_partial.
Local Definition t6 : list (Z * list Z) := [(29, [0; 0; 0; 7]); (19, [0; 3; 5]); (30, [0; 0; 96; 1; 2]); (20, [0; 100; 40; 100])].
Local Definition E6 : env := with_radio 7 (Mk_rxpkt [96; 1; 2] (-50) 10) (demo [5; 9] []).
Definition sys126 (ops : list op) (P : list entry -> list rentry -> list act -> bool) : Prop :=
  exists E H c0 tr w dtr h s hi, env_ok E /\ henv_ok H /\ Forall op_wf ops /\ exec E world0 ops tr w /\ drives (all_evs tr) dtr /\ rexec (call126 H) [] Sx126x.d126_0 dtr h s /\
    transcript h = Some hi /\ k_acts c0 = [] /\ P tr dtr (k_acts (chip126 c0 hi)) = true.
Local Lemma sys126_intro d ops P : together (call126 (sim126 t6)) Sx126x.d126_0 d E6 ops (fun tr dtr hi => P tr dtr (k_acts (chip126 on126 hi))) = true -> sys126 ops P.
Proof.
  intro Q. destruct (together_ok _ _ _ _ _ _ Q) as (tr & w & dtr & h & s & hi & A1 & A2 & A3 & A4 & A5 & A6). exists E6, (sim126 t6), on126, tr, w, dtr, h, s, hi.
  split; [apply with_radio_ok; reflexivity|]. split; [apply sim126_ok|]. repeat (split; [assumption|]). split; [reflexivity|exact A6].
Qed.
(** two uplinks at DR0 and DR5 with their windows; a packet is received in RX2 *)
Example C67_sx126x_partial_case : sys126 (OSetEirp 15 :: abp 0 0 ++ day ++ [OSetDr 5; OEnableChannel 0 false; OEnableChannel 2 false] ++ day) (fun tr dtr acts =>
  match acts with
  | [Listen _ _ _ _; Air m1 f1; Listen r1 _ _ _; Listen r2 _ _ _; Air m2 f2; Listen r3 _ _ _; Listen r4 _ _ _] =>
      (m_sf m1 =? 12) && (m_sf m2 =? 7) && (m_sf r3 =? 7) && (m_sf r4 =? 12) && (len f1 =? 16) && negb (m_steps m1 =? m_steps m2) && (m_steps m2 =? m_steps r3) &&
      match m_dbm10 m1, m_iq m1, m_iq r1 with Some x, Some false, Some true => x =? 150 | _, _, _ => false end
  | _ => false
  end).
Proof. apply (sys126_intro cfg). vm_compute. reflexivity. Qed.
(** A power the chip cannot do is refused by the driver, which the stack does not
    notice: after a frame at 14 dBm the maximum is lowered to -10 dBm, and the next
    frame goes out at 14 dBm all the same. *)
Theorem C67_sx126x_power_refuted : exists E H c0 ops tr w dtr h s hi l x f p frame m, env_ok E /\ henv_ok H /\ Forall op_wf ops /\ exec E world0 ops tr w /\
  drives (all_evs tr) dtr /\ rexec (call126 H) [] Sx126x.d126_0 dtr h s /\ transcript h = Some hi /\ k_acts c0 = [] /\
  In (OSetEirp (-10)) ops /\ asked_of tr = l ++ [Send f p (-10) frame] /\ k_acts (chip126 c0 hi) = x ++ [Air m frame] /\ m_dbm10 m = Some 140.
Proof.
  assert (X : sys126 (OSetEirp 14 :: abp 0 0 ++ day ++ [OSetEirp (-10); OSend 1 [4] false]) (fun tr dtr acts =>
    match asked_of tr, acts with
    | [_; _; _; _; Send _ _ p f], [_; _; _; _; Air m b] => (p =? -10) && zlist_eqb b f && match m_dbm10 m with Some x => x =? 140 | None => false end
    | _, _ => false
    end)) by (apply (sys126_intro cfg); vm_compute; reflexivity).
  destruct X as (E & H & c0 & tr & w & dtr & h & s & hi & A1 & A2 & A3 & A4 & A5 & A6 & A7 & A8 & P). 
  destruct (asked_of tr) as [|a1 [|a2 [|a3 [|a4 [|a5 [|]]]]]] eqn:Ea; try discriminate P; try (destruct a5; discriminate P). destruct a5 as [f p pw frame| |]; try discriminate P.
  destruct (k_acts (chip126 c0 hi)) as [|b1 [|b2 [|b3 [|b4 [|b5 [|]]]]]] eqn:Ek; try discriminate P; try (destruct b5; discriminate P). destruct b5 as [m b|]; try discriminate P.
  apply andb_prop in P as [P P3]. apply andb_prop in P as [P1 P2]. apply zlist_eqb_eq in P2. destruct (m_dbm10 m) as [z|] eqn:Em; [|discriminate P3].
  exists E, H, c0, (OSetEirp 14 :: abp 0 0 ++ day ++ [OSetEirp (-10); OSend 1 [4] false]), tr, w, dtr, h, s, hi, [a1; a2; a3; a4], [b1; b2; b3; b4], f, p, frame, m.
  apply Z.eqb_eq in P1, P3. subst b pw z. repeat (split; [assumption|]). split; [cbn; tauto|]. split; [exact Ea|]. split; [exact Ek|exact Em].
Qed.
Print Assumptions C67_sx126x_power_refuted.
