(** Prop_Net.v -- a device and its network server over a network that loses, repeats and
    reorders frames: uplinks (C79) *)
From Verif Require Import SpecNet LUp4 LClock Demo Prop_Uplink Prop_Clock.

(** the frame of what was said *)
Record carries (E : env) (r : session) (c : Z) (m : bool * option (Z * list Z)) (f : list Z) : Prop := Mk_carries {
  ca_u : exists adr req ack fo port d, len fo < 16 /\ snd m = nonempty port d /\ (port <> 0 \/ d = []) /\
    f = uplink_frame (e_aes E) (e_cmac E) (nwk_s_key r) (app_s_key r) (dev_addr r) c (fst m) adr req ack fo port d
}.
Lemma uplink_frame_nil aes cmac nwk a b addr c cf adr req ack fo port :
  uplink_frame aes cmac nwk a addr c cf adr req ack fo port [] = uplink_frame aes cmac nwk b addr c cf adr req ack fo port [].
Proof. reflexivity. Qed.
Lemma at_app_l a b n : (n < length a)%nat -> at_ (a ++ b) n = at_ a n.
Proof. intro H. unfold at_. apply app_nth1. exact H. Qed.
Lemma at_app_r a x b n : length a = n -> at_ (a ++ x :: b) n = x.
Proof. intros <-. unfold at_. rewrite app_nth2 by lia. rewrite Nat.sub_diag. reflexivity. Qed.
Lemma up_frame_head aes cmac nwk a addr c cf adr req ack fo port d : (forall k b, length (aes k b) = 16%nat) -> len fo < 16 ->
  let f := uplink_frame aes cmac nwk a addr c cf adr req ack fo port d in
  unle (slice f 6 2) = c mod 65536 /\ (d <> [] -> up_port f = port).
Proof.
  intros Ha Hf. cbv zeta. unfold uplink_frame, sealed. set (mic := data_mic _ _ _ _ _ _). unfold data_body.
  set (fc := up_fctrl adr req ack fo). set (enc := crypt aes a UP addr c d). set (mh := if cf then MHDR_CONF_UP else MHDR_UNCONF_UP).
  assert (Henc : length enc = length d) by (apply crypt_length; exact Ha). split.
  - rewrite <- !app_assoc.
    match goal with |- unle (slice (_ ++ _ ++ _ ++ _ ++ ?T) 6 2) = _ => pose proof (slice_app_skip ([mh] ++ le 4 addr ++ [fc]) (le 2 c) T 6 ltac:(rewrite !app_length, le_length; reflexivity)) as Hs end.
    rewrite le_length in Hs. rewrite <- !app_assoc in Hs. rewrite Hs, unle_le. reflexivity.
  - intro N. unfold up_port. destruct enc as [|e enc']; [destruct d; [congruence|discriminate Henc]|].
    destruct (fctrl_bits adr req ack (len fo)) as (F0 & _); [pose proof (len_nonneg fo); lia|].
    match goal with |- at_ ?F (8 + Z.to_nat (at_ ?F 5 mod 16)) = _ => assert (H5 : at_ F 5 = fc) by (unfold at_; cbn [app le nth]; reflexivity); rewrite H5 end.
    assert (Hfc : fc mod 16 = len fo) by exact F0. rewrite Hfc. rewrite <- !app_assoc.
    match goal with |- at_ (?A ++ ?B ++ ?C ++ ?D ++ ?G ++ (port :: ?enc') ++ ?T) ?N = _ =>
      replace (A ++ B ++ C ++ D ++ G ++ (port :: enc') ++ T) with ((A ++ B ++ C ++ D ++ G) ++ port :: (enc' ++ T)) by (rewrite <- !app_assoc; reflexivity) end.
    apply at_app_r. rewrite !app_length, !le_length. cbn [length]. unfold len. lia.
Qed.
(** what the server makes of such a frame, when it arrives in time *)
Lemma takes E r c m f last : env_ok E -> 0 <= dev_addr r < 4294967296 -> 0 <= c < 4294967296 -> carries E r c m f ->
  ((c - last) mod 65536 = 0 \/ 16384 < (c - last) mod 65536 -> server_takes (e_aes E) (e_cmac E) r last f = None) /\
  (0 < c - last <= 16384 -> exists u, server_takes (e_aes E) (e_cmac E) r last f = Some (c, u) /\ (u_confirm u, u_data u) = m).
Proof.
  intros HE Hr Hc [(adr & req & ack & fo & port & d & Hfo & Hm & Hp & ->)]. destruct m as [cf dat]. cbn [fst snd] in *.
  destruct (up_frame_head (e_aes E) (e_cmac E) (nwk_s_key r) (app_s_key r) (dev_addr r) c cf adr req ack fo port d (ok_aes_len E HE) Hfo) as [H6 Hport].
  assert (Q : (c mod 65536 - last) mod 65536 = (c - last) mod 65536) by (rewrite Zminus_mod_idemp_l; reflexivity).
  unfold server_takes. rewrite H6. unfold server_counter. rewrite Q. pose proof (Z.mod_pos_bound (c - last) 65536 ltac:(lia)) as B. split.
  - intros [Z0|Z0]; [rewrite Z0; reflexivity|]. replace (16384 <? (c - last) mod 65536) with true by (symmetry; apply Z.ltb_lt; lia). rewrite orb_true_r. reflexivity.
  - intro D. rewrite (Z.mod_small (c - last)) by lia. replace (c - last =? 0) with false by (symmetry; apply Z.eqb_neq; lia).
    replace (16384 <? c - last) with false by (symmetry; apply Z.ltb_ge; lia). cbn [orb]. replace (last + (c - last)) with c by lia.
    set (f := uplink_frame _ _ _ _ _ _ _ _ _ _ _ _ _) in *. set (k := port_key r (up_port f)).
    assert (K : f = uplink_frame (e_aes E) (e_cmac E) (nwk_s_key r) k (dev_addr r) c cf adr req ack fo port d).
    { unfold k. destruct d as [|b d]; [apply uplink_frame_nil|]. rewrite (Hport ltac:(discriminate)). destruct Hp as [Hp|Hp]; [|discriminate Hp]. unfold port_key. destruct (Z.eqb_spec port 0); [contradiction|reflexivity]. }
    clearbody k. rewrite K. rewrite (server_receives (e_aes E) (e_cmac E)); [|exact (ok_aes_len E HE)|exact (ok_cmac_len E HE)|exact Hr|exact Hc|exact Hfo].
    eexists. split; [reflexivity|]. cbn [u_confirm u_data]. rewrite Hm. destruct d; reflexivity.
Qed.
Lemma takes_not E r c m f last : env_ok E -> 0 <= dev_addr r < 4294967296 -> 0 <= c < 4294967296 -> carries E r c m f ->
  -49151 <= c - last <= 0 -> server_takes (e_aes E) (e_cmac E) r last f = None.
Proof.
  intros HE Hr Hc HC D. destruct (takes E r c m f last HE Hr Hc HC) as [T _]. apply T.
  destruct (Z.eq_dec (c - last) 0) as [Z0|Z0]; [left; rewrite Z0; reflexivity|right].
  replace ((c - last) mod 65536) with (c - last + 65536) by (apply Z.mod_unique with (q := -1); lia). lia.
Qed.

Lemma data_frames_cons t tr : data_frames (t :: tr) = data_frames [t] ++ data_frames tr.
Proof. unfold data_frames. cbn [flat_map]. rewrite app_nil_r. reflexivity. Qed.
Lemma frame_carries E w cf p d : env_ok E -> reachable E w -> (p <> 0 \/ d = []) -> carries E (ses w) (f_cnt_up (ses w)) (cf, nonempty p d) (frame_of E w cf p d).
Proof.
  intros HE Hr Hp. pose proof (reach_Inv E w HE Hr) as HI. constructor. cbn [fst snd]. do 4 eexists. exists p, d. split; [|split; [reflexivity|split; [exact Hp|reflexivity]]].
  pose proof (queue_len _ (iv_mac _ HI)). pose proof (mk_pos _ (iv_mac _ HI)). change (fopts w) with (queue (s_mac (w_st w))). lia.
Qed.
(** each step says what it sends *)
Lemma says_sends E ops0 tr0 w o v es w' : env_ok E -> Forall op_wf ops0 -> exec E world0 ops0 tr0 w -> op_wf o -> step E w o = Some (v, es, w') -> no_port_0 (o, v, es) ->
  Forall2 (carries E (ses w) (f_cnt_up (ses w))) (says E tr0 (o, v, es)) (data_frames [(o, v, es)]).
Proof.
  intros HE Hw0 H0 Ho Hs Hp. assert (Hr : reachable E w) by (exists ops0, tr0; auto). pose proof (reach_Inv E w HE Hr) as HI.
  unfold data_frames. cbn [flat_map fst snd]. rewrite app_nil_r.
  assert (NC : is_uplink_call o = false -> match o with OJoin => [] | _ => tx_frames es end = []).
  { intro N. destruct (step_tx E w o v es w' HE HI Ho Hs) as [p d c h1 s1 S|A|A _]; [destruct S; congruence|subst o; reflexivity|destruct o; rewrite ?A; reflexivity]. }
  destruct (is_uplink_call o) eqn:Hu; [clear NC|rewrite NC by reflexivity; destruct o; try discriminate Hu; constructor].
  assert (NE : v <> VErr ERR_NO -> tx_frames es = []).
  { intro N. destruct (step_tx E w o v es w' HE HI Ho Hs) as [p d c h1 s1 S|A|A _]; [destruct S; congruence|subst o; discriminate Hu|exact A]. }
  assert (SN : v <> VErr ERR_NO -> says E tr0 (o, v, es) = []).
  { intro N. destruct o; try reflexivity; destruct v as [| | |[]]; try reflexivity; congruence. }
  assert (DV : v = VErr ERR_NO \/ v <> VErr ERR_NO) by (destruct v as [| | |[]]; first [left; reflexivity|right; discriminate]).
  destruct DV as [->|N]; [clear NE SN|rewrite (SN N); destruct o; try discriminate Hu; rewrite (NE N); constructor].
  destruct o; try discriminate Hu; cbn [says].
  - rewrite (C01_uplink_layout E w port payload confirm es w' HE Hr Ho Hs). constructor; [|constructor]. apply frame_carries; assumption.
  - destruct (C42_time_request E ops0 tr0 w ans_required _ es w' HE Hw0 H0 Hs) as [A B]. destruct (cv_cbs (cs_seen E tr0)) as [cb|]; [clear A|destruct (A eq_refl) as [A1 _]; discriminate A1].
    destruct (B ltac:(discriminate)) as (e & t & Ev & Et & B1 & _). injection Ev as <-. rewrite B1, Et. cbn [hd]. constructor; [|constructor].
    match goal with |- carries _ _ _ (_, Some (_, ?P)) _ => replace (Some (CLOCK_PORT, P)) with (nonempty CLOCK_PORT P) by (unfold nonempty; destruct P eqn:EP; [apply app_eq_nil in EP; destruct EP as [_ EP]; discriminate EP|reflexivity]) end.
    apply frame_carries; [exact HE|exact Hr|left; discriminate].
  - destruct (C44_pending E ops0 tr0 w HE Hw0 H0) as (_ & _ & B). destruct (B _ _ _ Hs) as (e & Ev & C). injection Ev as <-.
    destruct (cv_ans (cs_seen E tr0)) as [|b l] eqn:Ea; cbn [is_nil] in C; [destruct C as [C _]; discriminate C|]. destruct C as [-> _]. constructor; [|constructor].
    change (Some (CLOCK_PORT, b :: l)) with (nonempty CLOCK_PORT (b :: l)). apply frame_carries; [exact HE|exact Hr|left; discriminate].
Qed.
(** the frames of a session say what the application said, with consecutive counters *)
Lemma said_sent E : env_ok E -> forall tr ops0 tr0 w ops w', Forall op_wf ops0 -> exec E world0 ops0 tr0 w -> Forall op_wf ops -> exec E w ops tr w' ->
  Forall (fun t => ~ new_session_entry t) tr -> Forall no_port_0 tr -> f_cnt_up (ses w) + Z.of_nat (length (data_frames tr)) <= 4294967296 ->
  length (said E tr0 tr) = length (data_frames tr) /\
  forall i, (i < length (data_frames tr))%nat -> carries E (ses w) (f_cnt_up (ses w) + Z.of_nat i) (nth i (said E tr0 tr) (false, None)) (nth i (data_frames tr) []).
Proof.
  intros HE tr. induction tr as [|t tr IH]; intros ops0 tr0 w ops w' Hw0 H0 Hw H Hn Hp Hc; [split; [reflexivity|cbn; lia]|].
  inversion H as [|? o ops' v es w1 ? ? Hs He]; subst. clear H. inversion Hw as [|? ? Ho Hw']; subst. inversion Hn as [|? ? Hn1 Hn']; subst. inversion Hp as [|? ? Hp1 Hp']; subst.
  assert (Hr : reachable E w) by (exists ops0, tr0; auto). pose proof (reach_Inv E w HE Hr) as HI.
  destruct (step_ses E w o v es w1 HE HI Ho Hs Hn1) as [[S1 S2 S3] Hup].
  pose proof (says_sends E ops0 tr0 w o v es w1 HE Hw0 H0 Ho Hs Hp1) as F. rewrite data_frames_cons in Hc. rewrite data_frames_cons. cbn [said].
  assert (Hu0 : 0 <= f_cnt_up (ses w) < 4294967296) by apply (sk_up _ (iv_ses _ HI)). rewrite app_length in Hc.
  assert (L1 : (length (data_frames [(o, v, es)]) <= 1)%nat).
  { destruct (step_tx E w o v es w1 HE HI Ho Hs) as [p d c h1 s1 S|A|A _]; unfold data_frames; cbn [flat_map fst snd]; rewrite app_nil_r;
      [destruct (sent_obs _ _ _ _ _ _ _ _ _ _ _ _ S) as (-> & _); destruct o; cbn; lia|subst o; cbn; lia|rewrite A; destruct o; cbn; lia]. }
  unfold entry in *.
  destruct (IH (ops0 ++ [o]) (tr0 ++ [(o, v, es)]) w1 ops' w') as [IL IC]; try assumption.
  { apply Forall_app. split; [exact Hw0|constructor; [exact Ho|constructor]]. }
  { eapply exec_app; [exact H0|]. econstructor; [exact Hs|constructor]. }
  { rewrite Hup. assert (D : length (data_frames [(o, v, es)]) = 0%nat \/ length (data_frames [(o, v, es)]) = 1%nat) by lia. destruct D as [D|D]; rewrite D in *.
    - change (Z.of_nat 0) with 0. rewrite Z.add_0_r, Z.mod_small by lia. lia.
    - destruct (Z.eq_dec (f_cnt_up (ses w) + Z.of_nat 1) 4294967296) as [Q|Q]; [rewrite Q, Z_mod_same_full|rewrite Z.mod_small]; lia. }
  split; [rewrite !app_length, IL; f_equal; clear - F; induction F; cbn [length]; congruence|]. intros i Hi. rewrite app_length in Hi.
  assert (T : forall c m f, carries E (ses w1) c m f -> carries E (ses w) c m f) by (intros c m f [X]; constructor; rewrite S1, S2, S3 in X; exact X).
  remember (says E tr0 (o, v, es)) as sy eqn:Esy. remember (data_frames [(o, v, es)]) as df eqn:Edf. clear Esy Edf. destruct F as [|m f ml fl M1 M2].
  - cbn [app length] in *.  specialize (IC i ltac:(lia)). apply T in IC. rewrite Hup in IC. change (Z.of_nat 0) with 0 in IC. rewrite Z.add_0_r, Z.mod_small in IC by lia. exact IC.
  - destruct fl; [|cbn in L1; lia]. inversion M2; subst. cbn [app length] in *. destruct i as [|i]; [cbn [nth]; rewrite Z.add_0_r; exact M1|]. cbn [nth].
    specialize (IC i ltac:(lia)). apply T in IC. rewrite Hup in IC. change (Z.of_nat 1) with 1 in IC. rewrite Z.mod_small in IC by lia.
    replace (f_cnt_up (ses w) + Z.of_nat (S i)) with (f_cnt_up (ses w) + 1 + Z.of_nat i) by lia. exact IC.
Qed.

(** ** C79 Uplinks over an unreliable network *)
Theorem C79_uplinks E ops0 tr0 w ops tr w' is :
  env_ok E -> Forall op_wf ops0 -> exec E world0 ops0 tr0 w -> Forall op_wf ops -> exec E w ops tr w' ->
  Forall (fun t => ~ new_session_entry t) tr -> Forall no_port_0 tr ->
  let c := f_cnt_up (ses w) in let n := Z.of_nat (length (data_frames tr)) in
  c + n <= 4294967296 -> Forall (fun i => 0 <= i < n) is -> passable (-1) is ->
  length (said E tr0 tr) = length (data_frames tr) /\
  map handed (server_run (e_aes E) (e_cmac E) (ses w) (c - 1) (map (fun i => nth (Z.to_nat i) (data_frames tr) []) is)) =
  map (fun i => (c + i, nth (Z.to_nat i) (said E tr0 tr) (false, None))) (fresh (-1) is).
Proof.
  intros HE Hw0 H0 Hw H Hn Hp c n Hc Hi Hpass. assert (Hr : reachable E w) by (exists ops0, tr0; auto). pose proof (reach_Inv E w HE Hr) as HI.
  destruct (said_sent E HE tr ops0 tr0 w ops w' Hw0 H0 Hw H Hn Hp Hc) as [L C]. split; [exact L|]. fold c in C.
  assert (Hc0 : 0 <= c < 4294967296) by apply (sk_up _ (iv_ses _ HI)). assert (Ha : 0 <= dev_addr (ses w) < 4294967296) by apply (sk_addr _ (iv_ses _ HI)).
  replace (c - 1) with (c + -1) by lia. revert Hi Hpass. generalize (-1). induction is as [|i is IH]; intros top Hi Hpass; [reflexivity|].
  inversion Hi as [|? ? Hi1 Hi']; subst. cbn [passable] in Hpass. destruct Hpass as [P1 P2]. cbn [map server_run fresh].
  specialize (C (Z.to_nat i) ltac:(lia)). rewrite Z2Nat.id in C by lia.
  destruct (Z.ltb_spec top i).
  - destruct (takes E (ses w) (c + i) _ _ (c + top) HE Ha ltac:(lia) C) as [_ T]. destruct (T ltac:(lia)) as (u & -> & Hu). cbn [map]. f_equal; [unfold handed; cbn [fst snd]; rewrite Hu; reflexivity|].
    rewrite Z.max_r in P2 by lia. apply IH; assumption.
  - rewrite (takes_not E (ses w) (c + i) _ _ (c + top) HE Ha ltac:(lia) C) by lia. rewrite Z.max_l in P2 by lia. apply IH; assumption.
Qed.
Print Assumptions C79_uplinks.
(** in particular everything arrives if nothing is lost *)
Theorem C79_lossless E ops0 tr0 w ops tr w' :
  env_ok E -> Forall op_wf ops0 -> exec E world0 ops0 tr0 w -> Forall op_wf ops -> exec E w ops tr w' ->
  Forall (fun t => ~ new_session_entry t) tr -> Forall no_port_0 tr ->
  f_cnt_up (ses w) + Z.of_nat (length (data_frames tr)) <= 4294967296 ->
  map snd (map handed (server_run (e_aes E) (e_cmac E) (ses w) (f_cnt_up (ses w) - 1) (data_frames tr))) = said E tr0 tr.
Proof.
  intros HE Hw0 H0 Hw H Hn Hp Hc. set (is := map Z.of_nat (seq 0 (length (data_frames tr)))).
  assert (Hid : forall A (d : A) l, map (fun i => nth (Z.to_nat i) l d) (map Z.of_nat (seq 0 (length l))) = l).
  { intros A d l. rewrite map_map. rewrite (map_ext _ (fun i => nth i l d)) by (intro; rewrite Nat2Z.id; reflexivity).
    induction l as [|a l IH]; [reflexivity|]. cbn [length seq map nth]. f_equal. rewrite <- seq_shift, map_map. exact IH. }
  assert (Hq : forall n s, passable (Z.of_nat s - 1) (map Z.of_nat (seq s n)) /\ fresh (Z.of_nat s - 1) (map Z.of_nat (seq s n)) = map Z.of_nat (seq s n)).
  { induction n as [|n IH]; intro s; [split; exact I || reflexivity|]. cbn [seq map passable fresh]. destruct (IH (S s)) as [I1 I2]. replace (Z.of_nat (S s) - 1) with (Z.of_nat s) in * by lia.
    rewrite Z.max_r by lia. replace (Z.of_nat s - 1 <? Z.of_nat s) with true by (symmetry; apply Z.ltb_lt; lia). rewrite I2. repeat split; try lia. exact I1. }
  destruct (Hq (length (data_frames tr)) 0%nat) as [Q1 Q2]. change (Z.of_nat 0 - 1) with (-1) in *.
  destruct (C79_uplinks E ops0 tr0 w ops tr w' is HE Hw0 H0 Hw H Hn Hp Hc) as [L R]; [|exact Q1|].
  { apply Forall_forall. intros i Hi. apply in_map_iff in Hi. destruct Hi as (k & <- & Hk). apply in_seq in Hk. lia. }
  unfold is in R at 1. rewrite Hid in R. rewrite R. unfold is. rewrite Q2. rewrite map_map. cbn [snd]. rewrite <- L. apply Hid.
Qed.
Print Assumptions C79_lossless.

(** Six uplinks, one of them empty with a queued answer, one from the clock package, across
    the rollover of the 16 bits; they arrive as 1, 0 (late), 3, 3 (twice), 4; 2 and 5 are lost. *)
Definition net_trace (E : env) (pre ops : list op) : list entry * list entry :=
  match run E world0 pre with Some (t0, w) => match run E w ops with Some (t, _) => (t0, t) | None => ([], []) end | None => ([], []) end.
Definition pause : list op := [OIrq 4; OTimer TIMER_RX1; OIrq 1; OTimer TIMER_RX2; OIrq 1].
Example C79_case : let E := demo [] [] in let pre := OCsInit (Some (Mk_cs_cbs true)) :: abp 65533 0 in
  let ops := [OSend 1 [1; 2] false] ++ pause ++ [OSend 2 (repeat 3 40) true] ++ pause ++ [OSend 9 [7] false; OSend 9 [8] false] ++ pause ++ [OCsSendReq true] ++ pause ++
             [OLinkCheckReq; OSend 4 [] false] ++ pause ++ [OSend 1 [6] false] in
  let (t0, t) := net_trace E pre ops in let is := [1; 0; 3; 3; 4] in
  run_of E pre ops (fun w tr w' => (f_cnt_up (ses w) =? 65533) && (length (data_frames tr) =? 6)%nat) /\
  passable (-1) is /\ fresh (-1) is = [1; 3; 4] /\ Forall no_port_0 t /\ length (said E t0 t) = 6%nat /\ nth 3 (said E t0 t) (false, None) = (false, Some (202, [1; 217; 179; 126; 82; 16])) /\
  map handed (server_run (e_aes E) (e_cmac E) (ses (after E pre)) 65532 (map (fun i => nth (Z.to_nat i) (data_frames t) []) is)) =
    [(65534, (true, Some (2, repeat 3 40))); (65536, nth 3 (said E t0 t) (false, None)); (65537, (false, None))].
Proof.
  intros E pre ops. destruct (net_trace E pre ops) as [t0 t] eqn:Et. intro is.
  split; [unfold E; show_run|]. vm_compute in Et. injection Et as <- <-. split; [cbn; repeat split; discriminate|]. split; [reflexivity|].
  split; [repeat (apply Forall_cons; [cbn; first [exact I|left; discriminate|right; reflexivity]|]); apply Forall_nil|]. split; [reflexivity|]. split; [vm_compute; reflexivity|]. vm_compute. reflexivity.
Qed.
