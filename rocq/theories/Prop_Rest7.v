(** Prop_Rest7.v -- C98 for the SX1276 *)
From Verif Require Import LSys LWant7 Demo DemoRest Prop_Radio7 Prop_Irq7 Prop_Own7 Prop_Sys7 Prop_Rest Prop_Down.

Lemma rest_run H c0 dtr h s : henv_ok H -> answers127 c0 H -> used127 H dtr h s -> forall hal d l dtr' res e, dtr = (PInit hal d, RvBool true, l) :: dtr' ->
  Forall2 served (res ++ [e]) (filter by_stack dtr') -> ends_asleep e -> exists hi, transcript h = Some hi /\ c_reg (chip127 c0 hi) 1 mod 8 = 0.
Proof.
  intros HH HA. revert dtr h s. apply (rexec_ind2 H (fun dtr h s => forall hal d l dtr' res e, dtr = (PInit hal d, RvBool true, l) :: dtr' ->
    Forall2 served (res ++ [e]) (filter by_stack dtr') -> ends_asleep e -> exists hi, transcript h = Some hi /\ c_reg (chip127 c0 hi) 1 mod 8 = 0)).
  - intros o v s' es Hi W E hal d l dtr' res e Q F A. exfalso. injection Q as _ _ _ <-. cbn in F. inversion F as [X|]; destruct res; discriminate.
  - intros tr h s o v s' es HU IH W E hal d l dtr' res e Q F A.
    assert (T : exists tr', tr = (PInit hal d, RvBool true, l) :: tr' /\ dtr' = tr' ++ [(o, v, es)]).
    { destruct tr as [|t tr']; [destruct HU as (_ & _ & ? & ? & ? & ? & ? & X); discriminate X|]. cbn in Q. injection Q as -> <-. exists tr'. auto. }
    destruct T as (tr' & Etr & ->). clear Q.
    destruct (C47_sx127x H h s o v s' es HH (or_introl (ex_intro _ tr HU)) W E) as ((hi & Th) & (its & Ti)).
    assert (D : does127 H tr h s o v s' es hi its) by (split; [exact HU|]; auto).
    assert (TA : transcript (h ++ es) = Some (hi ++ its)).
    { destruct (used_pos H tr h s HH HU) as (hi' & -> & Fi & _). rewrite (transcript_unparse _ Fi) in Th. injection Th as ->. rewrite transcript_app, Ti by exact Fi. reflexivity. }
    exists (hi ++ its). split; [exact TA|]. destruct (by_stack (o, v, es)) eqn:B.
    + destruct (served_snoc _ _ _ B F) as (res0 & e0 & Q & F0 & Se). apply app_inj_tail in Q as [_ <-].
      destruct (served_sleeps e _ A Se) as [K|K]; cbn [fst] in K; subst o.
      * apply (C73_sx127x_sleep H c0 tr h s v s' es hi its HH HA D).
      * apply (C73_sx127x_rand H c0 tr h s v s' es hi its HH HA D).
    + rewrite filter_snoc, B, app_nil_r in F. destruct (IH _ _ _ _ _ _ Etr F A) as (hi' & Th' & R). assert (hi' = hi) by congruence. subst hi'.
      unfold by_stack in B. apply Bool.negb_false_iff in B. cbn [fst] in B.
      destruct (C91_sx127x H c0 tr h s o v s' es hi its HH D) as (K & _); [destruct o; try discriminate B; reflexivity|]. cbv zeta in K. rewrite K; [exact R|].
      destruct o as [| | | |[]| | | | | | |]; try discriminate B; cbn; lia.
Qed.
(** The stack is idle: the chip is in sleep mode, whatever interrupts came since. *)
Theorem C98_sx127x : forall E H c0 ops tr w dtr h s hi, env_ok E -> henv_ok H -> answers127 c0 H -> Forall op_wf ops -> exec E world0 ops tr w ->
  drives (all_evs tr) dtr -> rexec (call127 H) [] Sx127x.d127_0 dtr h s -> transcript h = Some hi -> phase_of tr = P_idle -> c_reg (chip127 c0 hi) 1 mod 8 = 0.
Proof.
  intros E H c0 ops tr w dtr h s hi HE HH HA Ho Hx (hal & d & l & dtr' & -> & W & F) X T P. pose proof (run_safe E ops tr w HE Ho Hx) as S.
  destruct (C98_idle E ops tr w HE Ho Hx P) as (res & e & R & A). rewrite R in F, S.
  assert (U : used127 H ((PInit hal d, RvBool true, l) :: dtr') h s) by (split; [exact X|]; split; [constructor; [exact W|eapply drives_wf; eassumption]|eauto 8]).
  destruct (rest_run H c0 _ h s HH HA U hal d l dtr' res e eq_refl F A) as (hi' & T' & G). congruence.
Qed.
Print Assumptions C98_sx127x.
Local Definition t7 : list (Z * list Z) := [(66, [18]); (59, [0]); (44, [1]); (16, [0]); (19, [3]); (0, [96; 1; 2]); (25, [40]); (26, [107])].
Local Definition E7 : env := with_radio 4294967295 (Mk_rxpkt [96; 1; 2] (-50) 10) (demo [5; 9] []).
(** an uplink with its windows; an interrupt comes before and after each call, also after the
    last. Before that the chip was on the air, so it does not just sleep all the time. *)
Example C98_sx127x_case : exists E H c0 ops tr w dtr h s hi, env_ok E /\ henv_ok H /\ answers127 c0 H /\ Forall op_wf ops /\ exec E world0 ops tr w /\
  drives (all_evs tr) dtr /\ rexec (call127 H) [] Sx127x.d127_0 dtr h s /\ transcript h = Some hi /\ phase_of tr = P_idle /\
  beside (last_call dtr) = true /\ (2 <= length (c_acts (chip127 c0 hi)))%nat.
Proof.
  assert (Q : sys_by mixed (call127 (sim127 t7 on127)) Sx127x.d127_0 cfg E7 (OSetEirp 15 :: abp 0 0 ++ day) (fun dtr hi => beside (last_call dtr) && (2 <=? length (c_acts (chip127 on127 hi)))%nat) = true) by (vm_compute; reflexivity).
  destruct (sys_by_ok _ _ _ _ _ _ _ Q) as (tr & w & dtr & h & s & hi & A1 & A2 & A3 & A4 & A5 & A6 & A7). clear Q. apply andb_prop in A7 as [A7 A8].
  exists E7, (sim127 t7 on127), on127, (OSetEirp 15 :: abp 0 0 ++ day), tr, w, dtr, h, s, hi.
  split; [apply with_radio_ok; reflexivity|]. split; [apply sim127_ok|]. split; [apply sim127_answers; reflexivity|]. split; [exact A1|]. split; [exact A2|]. split; [exact A4|]. split; [exact A5|]. split; [exact A6|]. split; [exact A3|]. split; [exact A7|]. apply Nat.leb_le. exact A8.
Qed.
