(** Prop_End7.v -- C94 for the SX1276: from the application to the network server and
    back, through the stack, the driver, the bus and the chip *)
From Verif Require Import LEnd LClock.
From Verif Require Import LWant7 Demo DemoRadio DemoSys DemoLink Prop_Radio7 Prop_Sys7 Prop_Link7 Prop_Net Prop_Net2 Prop_Down DemoEnd.

(** a chip's actions only ever grow *)
Lemma acts_burst vs : forall c a, exists b, c_acts (burst127 c a vs) = c_acts c ++ b.
Proof.
  induction vs as [|v vs IH]; intros c a; [exists []; symmetry; apply app_nil_r|]. cbn [burst127]. destruct (IH (store127 c a v) (if a =? 0 then 0 else (a + 1) mod 128)) as (b & ->).
  assert (S : exists b', c_acts (store127 c a v) = c_acts c ++ b').
  { unfold store127. destruct (a =? 0); [destruct (_ =? 0); exists []; symmetry; apply app_nil_r|]. destruct (a =? 1); [eexists; reflexivity|exists []; symmetry; apply app_nil_r]. }
  destruct S as (b' & ->). exists (b' ++ b). rewrite app_assoc. reflexivity.
Qed.
Lemma acts_item c i : exists a, c_acts (item127 c i) = c_acts c ++ a.
Proof.
  assert (N : exists a, c_acts c = c_acts c ++ a) by (exists []; symmetry; apply app_nil_r).
  destruct i as [x|e]; [|destruct e as [b| | | | | | | |]; try destruct b; exact N]. cbn [item127]. destruct (mosi x) as [|a vs]; [exact N|]. destruct (128 <=? a); [apply acts_burst|exact N].
Qed.
Lemma acts_grow its : forall c, exists a, c_acts (chip127 c its) = c_acts c ++ a.
Proof.
  unfold chip127. induction its as [|i its IH]; intro c; [exists []; symmetry; apply app_nil_r|]. cbn [fold_left]. destruct (IH (item127 c i)) as (a & ->). destruct (acts_item c i) as (b & ->). exists (b ++ a). rewrite app_assoc. reflexivity.
Qed.
Lemma used_phase H dtr0 dtr1 h0 s0 h s hal d l d0 es0 es : dtr0 = (PInit hal d, RvBool true, l) :: d0 -> rop_wf (PInit hal d) ->
  safe ask0 es0 -> Forall2 served es0 (filter by_stack d0) -> safe ask0 es -> Forall2 served es (filter by_stack (d0 ++ dtr1)) ->
  rexec (call127 H) [] Sx127x.d127_0 dtr0 h0 s0 -> rexec (call127 H) h0 s0 dtr1 h s -> used127 H dtr0 h0 s0 /\ used127 H (dtr0 ++ dtr1) h s.
Proof.
  intros -> W S0 F0 S F X0 X. split.
  - split; [exact X0|]. split; [constructor; [exact W|exact (drives_wf _ _ _ S0 F0)]|eauto 8].
  - split; [exact (rexec_join _ _ _ _ _ _ X0 _ _ _ X)|]. split; [cbn; constructor; [exact W|exact (drives_wf _ _ _ S F)]|cbn; eauto 8].
Qed.
(** ** C94 Uplinks: what the application says in a session reaches the server
    The session begins after [tr0]; the driver serves the stack, the chip is worked over
    the bus. Everything aired can be heard by a gateway. Of the data frames the chip
    sends, in whatever order and with whatever losses and repetitions they arrive, the
    server hands on exactly what was said, each with its counter. *)
Theorem C94_uplinks_sx127x E H c0 ops0 tr0 w ops tr w' dtr0 dtr1 h0 s0 h s is :
  env_ok E -> henv_ok H -> answers127 c0 H -> Forall op_wf ops0 -> exec E world0 ops0 tr0 w -> Forall op_wf ops -> exec E w ops tr w' ->
  Forall (fun t => ~ new_session_entry t) tr -> Forall no_port_0 tr ->
  drives (all_evs tr0) dtr0 -> drives (all_evs (tr0 ++ tr)) (dtr0 ++ dtr1) ->
  rexec (call127 H) [] Sx127x.d127_0 dtr0 h0 s0 -> rexec (call127 H) h0 s0 dtr1 h s ->
  let c := f_cnt_up (ses w) in let n := Z.of_nat (length (said E tr0 tr)) in
  c + n <= 4294967296 -> Forall (fun i => 0 <= i < n) is -> passable (-1) is ->
  exists hi0 hi acts, transcript h0 = Some hi0 /\ transcript h = Some hi /\ c_acts (chip127 c0 hi) = c_acts (chip127 c0 hi0) ++ acts /\
    length (on_the_air acts) = length (said E tr0 tr) /\ Forall (audible 19) (aired acts) /\
    map handed (server_run (e_aes E) (e_cmac E) (ses w) (c - 1) (map (fun i => nth (Z.to_nat i) (on_the_air acts) []) is)) =
      map (fun i => (c + i, nth (Z.to_nat i) (said E tr0 tr) (false, None))) (fresh (-1) is).
Proof.
  intros HE HH HA W0 X0 W X N P D0 D R0 R c n Hc Hi Hp. pose proof (run_safe E ops0 tr0 w HE W0 X0) as S0.
  assert (XA : exec E world0 (ops0 ++ ops) (tr0 ++ tr) w') by (eapply exec_app; eassumption). assert (WA : Forall op_wf (ops0 ++ ops)) by (apply Forall_app; auto).
  pose proof (run_safe E _ _ w' HE WA XA) as S. destruct (drives_phases tr0 tr dtr0 dtr1 D0 D) as (hal & d & l & d0 & Q & Wi & F0 & F & _).
  destruct (used_phase H dtr0 dtr1 h0 s0 h s hal d l d0 _ _ Q Wi S0 F0 S F R0 R) as [U0 U].
  destruct (sys_run H c0 dtr0 h0 s0 HH HA U0 _ _ _ _ _ Q S0 F0) as (hi0 & a0 & T0 & _ & A0 & FA0).
  assert (Q' : dtr0 ++ dtr1 = (PInit hal d, RvBool true, l) :: d0 ++ dtr1) by (rewrite Q; reflexivity).
  destruct (sys_run H c0 _ h s HH HA U _ _ _ _ _ Q' S F) as (hi & a & T & _ & A & FA).
  assert (G : exists its, hi = hi0 ++ its).
  { destruct (used_pos H _ _ _ HH U0) as (hi' & E0 & Fi & _). rewrite E0, (transcript_unparse _ Fi) in T0. injection T0 as ->.
    rewrite (rexec_bus _ _ _ _ _ _ R), E0, transcript_app in T by exact Fi. destruct (transcript (bus dtr1)) as [j|]; [|discriminate T]. injection T as <-. eauto. }
  destruct G as (its & ->). destruct (acts_grow its (chip127 c0 hi0)) as (acts & EA). assert (Ec : chip127 c0 (hi0 ++ its) = chip127 (chip127 c0 hi0) its) by apply fold_left_app. rewrite Ec in A.
  exists hi0, (hi0 ++ its), acts. split; [exact T0|]. split; [exact T|]. split; [rewrite Ec; exact EA|].
  assert (a = a0 ++ acts) by (rewrite EA, A0, <- app_assoc in A; apply app_inv_head in A; congruence). subst a.
  exact (phase_server E ops0 tr0 w ops tr w' is acts 19 HE W0 X0 W X N P Hc Hi Hp (aired_phase _ _ _ _ _ _ _ FA0 FA)).
Qed.
Print Assumptions C94_uplinks_sx127x.

Lemma from_start_ok ptr its : forall pre, (forall p x post, its = p ++ Tr x :: post -> hd 1 (mosi x) = 0 -> writes127 13 (pre ++ p) = [ptr]) -> from_start ptr pre its = true.
Proof.
  induction its as [|i its IH]; intros pre G; [reflexivity|]. cbn [from_start]. apply andb_true_intro. split.
  - destruct i as [x|]; try reflexivity. destruct (hd 1 (mosi x) =? 0) eqn:Q; [|reflexivity]. cbn [negb orb]. apply Z.eqb_eq in Q. specialize (G [] x its eq_refl Q). rewrite app_nil_r in G. rewrite G. apply Z.eqb_refl.
  - apply IH. intros p x post E Hx. rewrite <- app_assoc. apply (G (i :: p) x post); [rewrite E; reflexivity|exact Hx].
Qed.
(** the frames the stack reads are those fetched from the chip *)
Lemma fetched_heard E H ops0 tr0 w ops tr w' dtr0 dtr1 h0 s0 h s : env_ok E -> henv_ok H -> Forall op_wf ops0 -> exec E world0 ops0 tr0 w -> Forall op_wf ops -> exec E w ops tr w' ->
  drives (all_evs tr0) dtr0 -> drives (all_evs (tr0 ++ tr)) (dtr0 ++ dtr1) ->
  rexec (call127 H) [] Sx127x.d127_0 dtr0 h0 s0 -> rexec (call127 H) h0 s0 dtr1 h s -> fetched127 dtr1 = heard_frames tr.
Proof.
  intros HE HH W0 X0 W X D0 D R0 R. pose proof (run_safe E ops0 tr0 w HE W0 X0) as S0.
  assert (XA : exec E world0 (ops0 ++ ops) (tr0 ++ tr) w') by (eapply exec_app; eassumption). assert (WA : Forall op_wf (ops0 ++ ops)) by (apply Forall_app; auto).
  pose proof (run_safe E _ _ w' HE WA XA) as S. destruct (drives_phases tr0 tr dtr0 dtr1 D0 D) as (hal & d & l & d0 & Q & Wi & F0 & F & F1).
  destruct (used_phase H dtr0 dtr1 h0 s0 h s hal d l d0 _ _ Q Wi S0 F0 S F R0 R) as [U0 (_ & U & _)]. apply Forall_app in U as [_ U].
  rewrite heard_flat, <- reads_filter. unfold fetched127. apply fetch_all; [intros [[[] v] es]; cbn; try reflexivity; discriminate|exact F1|].
  clear - HH U0 U R. revert dtr0 h0 s0 U0 R. induction dtr1 as [|[[o v] es] dtr1 IH]; intros dtr0 h0 s0 U0 R; [constructor|]. inversion U as [|? ? Wo U']; subst. cbn [fst] in Wo.
  apply rexec_one in R as (s1 & C & R). destruct (does_more H dtr0 h0 s0 o v s1 es HH U0 Wo C) as (hi & its & Do & U1 & _). constructor; [|exact (IH U' _ _ _ U1 R)].
  intros e Se. inversion Se as [| | | | | | |p lr|]; subst; try reflexivity. cbn [fst snd]. destruct (C53_sx127x_partial H on127 _ _ _ 255 _ _ _ hi its HH Do) as (ptr & n & data & raw & snr & Ep & R0 & R16 & R19 & _ & _ & Ln & _). injection Ep as ->.
  assert (Fs : from_start ptr [] its = true) by (apply from_start_ok; intros pre x post Q Hx; exact (read_start H _ _ _ _ _ _ _ _ _ ptr pre x post HH Do R16 Q Hx)).
  destruct Do as (_ & _ & _ & _ & ->). rewrite R16, R19, Fs, R0, Ln, Z.eqb_refl. reflexivity.
Qed.
(** ** C94 Downlinks: what the server sends in a session reaches the application
    If the packets fetched from the chip are the frames of the server with the counters
    [cs], of which any may be missing or repeated, the application is handed exactly the
    messages that are not repetitions. Missing: frames that arrive late (C80). *)
Theorem C94_downlinks_sx127x_partial E H ops0 tr0 w ops tr w' dtr0 dtr1 h0 s0 h s msg cs :
  env_ok E -> henv_ok H -> Forall op_wf ops0 -> exec E world0 ops0 tr0 w -> Forall op_wf ops -> exec E w ops tr w' ->
  joining w = false -> Forall (fun t => ~ new_session_entry t /\ join_call t = false) tr ->
  drives (all_evs tr0) dtr0 -> drives (all_evs (tr0 ++ tr)) (dtr0 ++ dtr1) ->
  rexec (call127 H) [] Sx127x.d127_0 dtr0 h0 s0 -> rexec (call127 H) h0 s0 dtr1 h s ->
  (forall c, len (dm_fopts (msg c)) < 16) ->
  fetched127 dtr1 = map (server_frame E (ses w) msg) cs -> heard (top_of w) cs ->
  deliveries tr = map (fun c => (dm_confirmed (msg c), dm_frm (msg c))) (fresh (top_of w) cs).
Proof.
  intros HE HH W0 X0 W X J N D0 D R0 R L Fe Hd. rewrite (fetched_heard E H ops0 tr0 w ops tr w' dtr0 dtr1 h0 s0 h s HE HH W0 X0 W X D0 D R0 R) in Fe.
  apply (C80_downlinks_partial E w ops tr w' msg cs); try assumption. exists ops0, tr0. auto.
Qed.
Print Assumptions C94_downlinks_sx127x_partial.

Local Definition E7 : env := with_noise 4294967295 (demo [5; 9; 3; 8] (map net_dl chat_in)).
Local Definition H7 : henv := with_flags 18 (chat_flags [8] [64] [128]) (with_flags 0 (map (fun c => fst (net_dl c)) chat_in)
  (with_flags 19 (map (fun c => [len (fst (net_dl c))]) chat_in) (sim127 [(66, [18]); (59, [0]); (44, [1]); (16, [0]); (25, [36]); (26, [84])] on127))).
Lemma with_flags_answers c0 a fl base : a <> 1 -> a <> 30 -> answers127 c0 base -> answers127 c0 (with_flags a fl base).
Proof.
  intros N1 N30 A h its b o T. specialize (A h its b o T). cbn [with_flags h_xfer]. unfold hist. rewrite !fold_left_app, (hist_parse h [] None its T). cbn [fold_left hstep app].
  destruct (Z.eqb_spec 1 a); [congruence|]. destruct (Z.eqb_spec 30 a); [congruence|]. exact A.
Qed.
Example C94_sx127x_case : exists E H c0 tr0 w tr w' dtr0 dtr1 h0 h hi0 hi, env_ok E /\ henv_ok H /\ answers127 c0 H /\ phases (call127 H) Sx127x.d127_0 E tr0 w tr w' dtr0 dtr1 h0 h /\
  transcript h0 = Some hi0 /\ transcript h = Some hi /\
  fetched127 dtr1 = map (server_frame E (ses w) net_msg) chat_in /\ top_of w = 4 /\ f_cnt_up (ses w) = 65533 /\ length (said E tr0 tr) = 4%nat /\ length (deliveries tr) = 2%nat /\
  length (c_acts (chip127 c0 hi0)) = 1%nat /\ length (c_acts (chip127 c0 hi)) = 11%nat.
Proof.
  assert (Q : in_phases (call127 H7) Sx127x.d127_0 cfg E7 (OSetEirp 14 :: abp 65533 4) chat (fun tr0 w tr dtr1 hi0 hi => chat_ok E7 tr0 w tr (fetched127 dtr1) (c_acts (chip127 on127 hi0)) (c_acts (chip127 on127 hi))) = true) by (vm_compute; reflexivity).
  destruct (in_phases_ok _ _ _ _ _ _ _ Q) as (tr0 & w & tr & w' & dtr0 & dtr1 & h0 & h & hi0 & hi & A & B & C & D). clear Q. apply chat_ok_inv in D. exists E7, H7, on127, tr0, w, tr, w', dtr0, dtr1, h0, h, hi0, hi.
  split; [apply with_noise_ok; [reflexivity|apply demo_ok]|]. split; [apply with_flags_ok, with_flags_ok, with_flags_ok, sim127_ok|].
  split; [apply with_flags_answers, with_flags_answers, with_flags_answers, sim127_answers; first [discriminate|reflexivity]|]. split; [exact A|]. split; [exact B|]. split; [exact C|]. exact D.
Qed.
