(** Prop_End6.v -- C94 for the SX1261/2: from the application to the network server and
    back, through the stack, the driver, the bus and the chip *)
From Verif Require Import LEnd LClock.
From Verif Require Import LWant6 Demo DemoRadio DemoSys DemoLink Prop_Radio6 Prop_Sys6 Prop_Link6 Prop_Net Prop_Net2 Prop_Down DemoEnd.

(** a chip's actions only ever grow *)
Lemma acts_item c i : exists a, k_acts (item126 c i) = k_acts c ++ a.
Proof.
  assert (N : exists a, k_acts c = k_acts c ++ a) by (exists []; symmetry; apply app_nil_r).
  destruct i as [x|e]; [|destruct e as [b| | | | | | | |]; try destruct b; exact N]. cbn [item126]. unfold cmd126.
  repeat match goal with
  | |- exists a, k_acts (set_acts c ?y) = _ => exists y; reflexivity
  | |- exists a, k_acts (match ?z with _ => _ end) = _ => destruct z; try exact N
  | |- exists a, k_acts (if ?z then _ else _) = _ => destruct z; try exact N
  end.
Qed.
Lemma acts_grow its : forall c, exists a, k_acts (chip126 c its) = k_acts c ++ a.
Proof.
  unfold chip126. induction its as [|i its IH]; intro c; [exists []; symmetry; apply app_nil_r|]. cbn [fold_left]. destruct (IH (item126 c i)) as (a & ->). destruct (acts_item c i) as (b & ->). exists (b ++ a). rewrite app_assoc. reflexivity.
Qed.
Lemma used_phase H dtr0 dtr1 h0 s0 h s hal d l d0 es0 es : dtr0 = (PInit hal d, RvBool true, l) :: d0 -> rop_wf (PInit hal d) ->
  safe ask0 es0 -> Forall2 served es0 (filter by_stack d0) -> safe ask0 es -> Forall2 served es (filter by_stack (d0 ++ dtr1)) ->
  rexec (call126 H) [] Sx126x.d126_0 dtr0 h0 s0 -> rexec (call126 H) h0 s0 dtr1 h s -> used126 H dtr0 h0 s0 /\ used126 H (dtr0 ++ dtr1) h s.
Proof.
  intros -> W S0 F0 S F X0 X. split.
  - split; [exact X0|]. split; [constructor; [exact W|exact (drives_wf _ _ _ S0 F0)]|eauto 8].
  - split; [exact (rexec_join _ _ _ _ _ _ X0 _ _ _ X)|]. split; [cbn; constructor; [exact W|exact (drives_wf _ _ _ S F)]|cbn; eauto 8].
Qed.
(** ** C94 Uplinks: what the application says in a session reaches the server
    The session begins after [tr0]; the driver serves the stack, the chip is worked over
    the bus. Everything aired can be heard by a gateway. Of the data frames the chip
    sends, in whatever order and with whatever losses and repetitions they arrive, the
    server hands on exactly what was said, each with its counter. *)
Theorem C94_uplinks_sx126x E H c0 ops0 tr0 w ops tr w' dtr0 dtr1 h0 s0 h s is :
  env_ok E -> henv_ok H -> Forall op_wf ops0 -> exec E world0 ops0 tr0 w -> Forall op_wf ops -> exec E w ops tr w' ->
  Forall (fun t => ~ new_session_entry t) tr -> Forall no_port_0 tr ->
  drives (all_evs tr0) dtr0 -> drives (all_evs (tr0 ++ tr)) (dtr0 ++ dtr1) ->
  rexec (call126 H) [] Sx126x.d126_0 dtr0 h0 s0 -> rexec (call126 H) h0 s0 dtr1 h s ->
  let c := f_cnt_up (ses w) in let n := Z.of_nat (length (said E tr0 tr)) in
  c + n <= 4294967296 -> Forall (fun i => 0 <= i < n) is -> passable (-1) is ->
  exists hi0 hi acts, transcript h0 = Some hi0 /\ transcript h = Some hi /\ k_acts (chip126 c0 hi) = k_acts (chip126 c0 hi0) ++ acts /\
    length (on_the_air acts) = length (said E tr0 tr) /\ Forall (audible 25) (aired acts) /\
    map handed (server_run (e_aes E) (e_cmac E) (ses w) (c - 1) (map (fun i => nth (Z.to_nat i) (on_the_air acts) []) is)) =
      map (fun i => (c + i, nth (Z.to_nat i) (said E tr0 tr) (false, None))) (fresh (-1) is).
Proof.
  intros HE HH W0 X0 W X N P D0 D R0 R c n Hc Hi Hp. pose proof (run_safe E ops0 tr0 w HE W0 X0) as S0.
  assert (XA : exec E world0 (ops0 ++ ops) (tr0 ++ tr) w') by (eapply exec_app; eassumption). assert (WA : Forall op_wf (ops0 ++ ops)) by (apply Forall_app; auto).
  pose proof (run_safe E _ _ w' HE WA XA) as S. destruct (drives_phases tr0 tr dtr0 dtr1 D0 D) as (hal & d & l & d0 & Q & Wi & F0 & F & _).
  destruct (used_phase H dtr0 dtr1 h0 s0 h s hal d l d0 _ _ Q Wi S0 F0 S F R0 R) as [U0 U].
  destruct (sys_run H c0 dtr0 h0 s0 HH U0 _ _ _ _ _ Q S0 F0) as (hi0 & a0 & T0 & _ & A0 & FA0).
  assert (Q' : dtr0 ++ dtr1 = (PInit hal d, RvBool true, l) :: d0 ++ dtr1) by (rewrite Q; reflexivity).
  destruct (sys_run H c0 _ h s HH U _ _ _ _ _ Q' S F) as (hi & a & T & _ & A & FA).
  assert (G : exists its, hi = hi0 ++ its).
  { destruct (used_pos H _ _ _ HH U0) as (hi' & E0 & Fi & _). rewrite E0, (transcript_unparse _ Fi) in T0. injection T0 as ->.
    rewrite (rexec_bus _ _ _ _ _ _ R), E0, transcript_app in T by exact Fi. destruct (transcript (bus dtr1)) as [j|]; [|discriminate T]. injection T as <-. eauto. }
  destruct G as (its & ->). destruct (acts_grow its (chip126 c0 hi0)) as (acts & EA). assert (Ec : chip126 c0 (hi0 ++ its) = chip126 (chip126 c0 hi0) its) by apply fold_left_app. rewrite Ec in A.
  exists hi0, (hi0 ++ its), acts. split; [exact T0|]. split; [exact T|]. split; [rewrite Ec; exact EA|].
  assert (a = a0 ++ acts) by (rewrite EA, A0, <- app_assoc in A; apply app_inv_head in A; congruence). subst a.
  exact (phase_server E ops0 tr0 w ops tr w' is acts 25 HE W0 X0 W X N P Hc Hi Hp (aired_phase _ _ _ _ _ _ _ FA0 FA)).
Qed.
Print Assumptions C94_uplinks_sx126x.

(** the frames the stack reads are those fetched from the chip *)
Lemma fetched_heard E H ops0 tr0 w ops tr w' dtr0 dtr1 h0 s0 h s : env_ok E -> henv_ok H -> Forall op_wf ops0 -> exec E world0 ops0 tr0 w -> Forall op_wf ops -> exec E w ops tr w' ->
  drives (all_evs tr0) dtr0 -> drives (all_evs (tr0 ++ tr)) (dtr0 ++ dtr1) ->
  rexec (call126 H) [] Sx126x.d126_0 dtr0 h0 s0 -> rexec (call126 H) h0 s0 dtr1 h s -> fetched126 dtr1 = heard_frames tr.
Proof.
  intros HE HH W0 X0 W X D0 D R0 R. pose proof (run_safe E ops0 tr0 w HE W0 X0) as S0.
  assert (XA : exec E world0 (ops0 ++ ops) (tr0 ++ tr) w') by (eapply exec_app; eassumption). assert (WA : Forall op_wf (ops0 ++ ops)) by (apply Forall_app; auto).
  pose proof (run_safe E _ _ w' HE WA XA) as S. destruct (drives_phases tr0 tr dtr0 dtr1 D0 D) as (hal & d & l & d0 & Q & Wi & F0 & F & F1).
  destruct (used_phase H dtr0 dtr1 h0 s0 h s hal d l d0 _ _ Q Wi S0 F0 S F R0 R) as [U0 (_ & U & _)]. apply Forall_app in U as [_ U].
  rewrite heard_flat, <- reads_filter. unfold fetched126. apply fetch_all; [intros [[[] v] es]; cbn; try reflexivity; discriminate|exact F1|].
  clear - HH U0 U R. revert dtr0 h0 s0 U0 R. induction dtr1 as [|[[o v] es] dtr1 IH]; intros dtr0 h0 s0 U0 R; [constructor|]. inversion U as [|? ? Wo U']; subst. cbn [fst] in Wo.
  apply rexec_one in R as (s1 & C & R). destruct (does_more H dtr0 h0 s0 o v s1 es HH U0 Wo C) as (hi & its & Do & U1 & _). constructor; [|exact (IH U' _ _ _ U1 R)].
  intros e Se. inversion Se as [| | | | | | |p lr|]; subst; try reflexivity. cbn [fst snd]. destruct (C53_sx126x H _ _ _ 255 _ _ _ hi its HH Do) as (n & off & data & raw & snr & z & Ep & An & Bu & _ & Ln & _). injection Ep as ->.
  destruct Do as (_ & _ & _ & _ & ->). rewrite An, Bu, Ln, !Z.eqb_refl. reflexivity.
Qed.
(** ** C94 Downlinks: what the server sends in a session reaches the application
    If the packets fetched from the chip are the frames of the server with the counters
    [cs], of which any may be missing or repeated, the application is handed exactly the
    messages that are not repetitions. Missing: frames that arrive late (C80). *)
Theorem C94_downlinks_sx126x_partial E H ops0 tr0 w ops tr w' dtr0 dtr1 h0 s0 h s msg cs :
  env_ok E -> henv_ok H -> Forall op_wf ops0 -> exec E world0 ops0 tr0 w -> Forall op_wf ops -> exec E w ops tr w' ->
  joining w = false -> Forall (fun t => ~ new_session_entry t /\ join_call t = false) tr ->
  drives (all_evs tr0) dtr0 -> drives (all_evs (tr0 ++ tr)) (dtr0 ++ dtr1) ->
  rexec (call126 H) [] Sx126x.d126_0 dtr0 h0 s0 -> rexec (call126 H) h0 s0 dtr1 h s ->
  (forall c, len (dm_fopts (msg c)) < 16) ->
  fetched126 dtr1 = map (server_frame E (ses w) msg) cs -> heard (top_of w) cs ->
  deliveries tr = map (fun c => (dm_confirmed (msg c), dm_frm (msg c))) (fresh (top_of w) cs).
Proof.
  intros HE HH W0 X0 W X J N D0 D R0 R L Fe Hd. rewrite (fetched_heard E H ops0 tr0 w ops tr w' dtr0 dtr1 h0 s0 h s HE HH W0 X0 W X D0 D R0 R) in Fe.
  apply (C80_downlinks_partial E w ops tr w' msg cs); try assumption. exists ops0, tr0. auto.
Qed.
Print Assumptions C94_downlinks_sx126x_partial.

Local Definition E6 : env := demo [5; 9; 3; 8] (map net_dl chat_in).
Local Definition H6 : henv := with_flags 18 (chat_flags [0; 0; 1] [0; 0; 2] [0; 2; 0]) (with_flags 30 (map (fun c => [0; 0] ++ fst (net_dl c)) chat_in)
  (with_flags 19 (map (fun c => [0; len (fst (net_dl c)); 5]) chat_in) (sim126 [(29, [0; 0; 0; 120; 86; 52; 18]); (20, [0; 160; 36; 160])]))).
Example C94_sx126x_case : exists E H c0 tr0 w tr w' dtr0 dtr1 h0 h hi0 hi, env_ok E /\ henv_ok H /\ phases (call126 H) Sx126x.d126_0 E tr0 w tr w' dtr0 dtr1 h0 h /\
  transcript h0 = Some hi0 /\ transcript h = Some hi /\
  fetched126 dtr1 = map (server_frame E (ses w) net_msg) chat_in /\ top_of w = 4 /\ f_cnt_up (ses w) = 65533 /\ length (said E tr0 tr) = 4%nat /\ length (deliveries tr) = 2%nat /\
  length (k_acts (chip126 c0 hi0)) = 1%nat /\ length (k_acts (chip126 c0 hi)) = 11%nat.
Proof.
  assert (Q : in_phases (call126 H6) Sx126x.d126_0 cfg E6 (OSetEirp 14 :: abp 65533 4) chat (fun tr0 w tr dtr1 hi0 hi => chat_ok E6 tr0 w tr (fetched126 dtr1) (k_acts (chip126 on126 hi0)) (k_acts (chip126 on126 hi))) = true) by (vm_compute; reflexivity).
  destruct (in_phases_ok _ _ _ _ _ _ _ Q) as (tr0 & w & tr & w' & dtr0 & dtr1 & h0 & h & hi0 & hi & A & B & C & D). clear Q. apply chat_ok_inv in D. exists E6, H6, on126, tr0, w, tr, w', dtr0, dtr1, h0, h, hi0, hi.
  split; [apply demo_ok|]. split; [apply with_flags_ok, with_flags_ok, with_flags_ok, sim126_ok|]. split; [exact A|]. split; [exact B|]. split; [exact C|]. exact D.
Qed.
