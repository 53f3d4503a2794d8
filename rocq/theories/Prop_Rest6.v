(** Prop_Rest6.v -- C98 for the SX1261/2 *)
From Verif Require Import LSys LWant6 Demo DemoRest Prop_Radio6 Prop_Irq6 Prop_Sys6 Prop_Rest Prop_Down.

(** The stack is idle and the driver has not been called beside it since it slept: the
    chip is asleep, with its settings kept. *)
Theorem C98_sx126x_partial : forall E H p ops tr w dtr h s hi, env_ok E -> henv_ok H -> Forall op_wf ops -> exec E world0 ops tr w ->
  drives (all_evs tr) dtr -> rexec (call126 H) [] Sx126x.d126_0 dtr h s -> transcript h = Some hi ->
  phase_of tr = P_idle -> beside (last_call dtr) = false -> pw_run p hi = Some (Cold true).
Proof.
  intros E H p ops tr w dtr0 h s hi HE HH Ho Hx Dr X T P B0. destruct (last_call_snoc dtr0 B0) as (dtr & t & -> & B). clear B0. destruct Dr as (hal & d & l & dtr' & Q & W & F). pose proof (run_safe E ops tr w HE Ho Hx) as S.
  pose proof (C98_idle E ops tr w HE Ho Hx P) as R.
  assert (U : used126 H (dtr ++ [t]) h s) by (split; [exact X|]; rewrite Q; split; [constructor; [exact W|eapply drives_wf; eassumption]|eauto 8]).
  assert (Lt : exists d0, dtr = (PInit hal d, RvBool true, l) :: d0 /\ dtr' = d0 ++ [t]).
  { destruct dtr as [|t0 d0]; cbn in Q; [|injection Q as -> <-; eauto]. exfalso. injection Q as _ <-. destruct R as (l1 & e & R & _). rewrite R in F. inversion F as [A|]; destruct l1; discriminate. }
  destruct Lt as (d0 & -> & ->). destruct t as [[o v] es]. cbn [fst] in *.
  assert (K : o = PSleep \/ o = PRand) by (apply (rests_last _ d0 (o, v, es) R F); cbn; rewrite B; reflexivity).
  destruct (rexec_last (call126 H) [] Sx126x.d126_0 ((PInit hal d, RvBool true, l) :: d0) o v es h s X) as (h1 & s1 & X1 & C1 & ->).
  assert (U1 : used126 H ((PInit hal d, RvBool true, l) :: d0) h1 s1).
  { split; [exact X1|]. split; [|eauto 8]. destruct U as [_ [U _]]. change ((PInit hal d, RvBool true, l) :: d0 ++ [(o, v, es)]) with (((PInit hal d, RvBool true, l) :: d0) ++ [(o, v, es)]) in U. apply Forall_app in U as [U _]. exact U. }
  assert (Wo : rop_wf o) by (destruct K as [->| ->]; exact I).
  destruct (C47_sx126x H h1 s1 o v s es HH (or_introl (ex_intro (fun tr => used126 H tr h1 s1) _ U1)) Wo C1) as ((hi1 & T1) & (its & T2)).
  assert (D : does126 H ((PInit hal d, RvBool true, l) :: d0) h1 s1 o v s es hi1 its) by (split; [exact U1|]; auto).
  assert (TA : hi = hi1 ++ its).
  { destruct (used_pos H _ h1 s1 HH U1) as (hi' & -> & Fi & _). rewrite (transcript_unparse _ Fi) in T1. injection T1 as ->. rewrite transcript_app, T2 in T by exact Fi. injection T as <-. reflexivity. }
  rewrite TA. destruct K as [->| ->].
  - apply (C73_sx126x_sleep H on126 p _ h1 s1 v s es hi1 its HH D).
  - apply (C73_sx126x_rand H on126 p _ h1 s1 v s es hi1 its HH D).
Qed.
Print Assumptions C98_sx126x_partial.
Local Definition t6 : list (Z * list Z) := [(29, [0; 0; 0; 7]); (19, [0; 3; 5]); (30, [0; 0; 96; 1; 2]); (20, [0; 100; 40; 100])].
Local Definition E6 : env := with_radio 7 (Mk_rxpkt [96; 1; 2] (-50) 10) (demo [5; 9] []).
Definition asleep126 (hi : list item) : bool := match pw_run (Awake true) hi with Some (Cold true) => true | _ => false end.
Definition rest126 (mix : list ev -> list rop) (ops : list op) (P : list rentry -> list item -> bool) : Prop :=
  exists E H tr w dtr h s hi, env_ok E /\ henv_ok H /\ Forall op_wf ops /\ exec E world0 ops tr w /\ phase_of tr = P_idle /\
    drives (all_evs tr) dtr /\ rexec (call126 H) [] Sx126x.d126_0 dtr h s /\ transcript h = Some hi /\ P dtr hi = true.
Local Lemma rest126_intro mix ops P : sys_by mix (call126 (sim126 t6)) Sx126x.d126_0 cfg E6 ops P = true -> rest126 mix ops P.
Proof.
  intro Q. destruct (sys_by_ok _ _ _ _ _ _ _ Q) as (tr & w & dtr & h & s & hi & A1 & A2 & A3 & A4 & A5 & A6 & A7). clear Q. exists E6, (sim126 t6), tr, w, dtr, h, s, hi.
  split; [apply with_radio_ok; reflexivity|]. split; [apply sim126_ok|]. split; [exact A1|]. split; [exact A2|]. split; [exact A3|]. split; [exact A4|]. split; [exact A5|]. split; [exact A6|exact A7].
Qed.
(** two uplinks; the interrupt of the last packet is served, then the radio sleeps *)
Example C98_sx126x_case : rest126 woken (abp 0 0 ++ day ++ day) (fun dtr hi => asleep126 hi && negb (beside (last_call dtr)) && (length (filter (fun t => match fst (fst t) with PTx _ => true | _ => false end) dtr) =? 2)%nat).
Proof. apply rest126_intro. vm_compute. reflexivity. Qed.
(** A spurious interrupt while the stack is idle wakes the chip to read its flags, and the
    chip is not put back to sleep. *)
Theorem C98_sx126x_interrupt_refuted : ~ (forall E H p ops tr w dtr h s hi, env_ok E -> henv_ok H -> Forall op_wf ops -> exec E world0 ops tr w ->
  drives (all_evs tr) dtr -> rexec (call126 H) [] Sx126x.d126_0 dtr h s -> transcript h = Some hi ->
  phase_of tr = P_idle -> pw_run p hi = Some (Cold true)).
Proof.
  intro C. assert (R : rest126 mixed (abp 0 0 ++ day) (fun dtr hi => match pw_run (Awake true) hi with Some (Awake _) => true | _ => false end)) by (apply rest126_intro; vm_compute; reflexivity).
  destruct R as (E & H & tr & w & dtr & h & s & hi & A1 & A2 & A3 & A4 & A5 & A6 & A7 & A8 & A9).
  rewrite (C E H (Awake true) _ tr w dtr h s hi A1 A2 A3 A4 A6 A7 A8 A5) in A9. discriminate A9.
Qed.
Print Assumptions C98_sx126x_interrupt_refuted.
