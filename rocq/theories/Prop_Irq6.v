(** Prop_Irq6.v -- C71 to C73 for the SX126x driver *)
From Verif Require Import LWant6 DemoRadio SpecIrq.
Local Definition usual := [PInit hal_full cfg; PHandler true; PFreq 868100000; PPower 14; PPublic true; PSetup (par 1 0 false)].
Lemma likes_app_inv a : forall b its, likes (a ++ b) its -> exists x y, its = x ++ y /\ likes a x /\ likes b y.
Proof.
  induction a as [|c a IH]; intros b its L; [exists [], its; repeat split; [constructor|exact L]|].
  cbn [app] in L. inversion L as [|? l ? its' Hc L' E1 E2]. subst. destruct (IH _ _ L') as (x & y & -> & La & Lb). exists (l ++ x), y. rewrite app_assoc. repeat split; [constructor; assumption|exact Lb].
Qed.

(** ** The interrupt setting, start-up commands and register reads of a list of commands *)
Definition bdio (u : option (Z * Z * Z * Z)) (b : cop) : option (Z * Z * Z * Z) :=
  match b with
  | CW _ bs => match bs with
      | [8; a; b; c; d; e; f; g; h] => Some (256 * a + b, 256 * c + d, 256 * e + f, 256 * g + h)
      | 132 :: w :: _ => if bit w 2 then u else None
      | _ => u
      end
  | CD (HReset true) => None
  | _ => u
  end.
Definition bstart (b : cop) : list (list Z) :=
  match b with
  | CW _ bs => match bs with c :: r => if existsb (Z.eqb c) [7; 151; 137; 150; 138] then [c :: r] else [] | [] => [] end
  | CS _ cmd _ => if cmd =? 23 then [[23]] else []
  | _ => []
  end.
Definition bregs (b : cop) : list (Z * list Z) := match b with CG _ a vs => [(256 * Z.shiftr a 8 + Z.land a 255, vs)] | _ => [] end.
Lemma start_app a b : startup (a ++ b) = startup a ++ startup b. Proof. apply flat_map_app. Qed.
Lemma regs_app a b : regs126 (a ++ b) = regs126 a ++ regs126 b. Proof. apply flat_map_app. Qed.
Lemma dio_lead z l u : lead z l -> fold_left dio_see l u = u.
Proof. destruct z; [intros (x & y & Hx & Hy & ->)|intros ->; reflexivity]. cbn [fold_left dio_see]. rewrite Hx, Hy. reflexivity. Qed.
Lemma start_lead z l : lead z l -> startup l = [].
Proof. destruct z; [intros (x & y & Hx & Hy & ->)|intros ->; reflexivity]. unfold startup. cbn [flat_map]. rewrite Hx, Hy. reflexivity. Qed.
Lemma regs_lead z l : lead z l -> regs126 l = [].
Proof.
  destruct z; [intros (x & y & Hx & Hy & ->)|intros ->; reflexivity]. unfold regs126. cbn [flat_map].
  destruct x as [|[x0 w0] x]; [discriminate|]. destruct y as [|[y0 z0] y]; [discriminate|]. injection Hx as -> _. injection Hy as -> _. reflexivity.
Qed.
Lemma like_dio b l : like b l -> forall u, fold_left dio_see l u = bdio u b.
Proof.
  destruct b as [z bs|z cmd vs|z a vs|z off vs|e]; cbn [like]; intros Hl u.
  - destruct Hl as (l' & x & Hl & Hx & _ & ->). rewrite fold_left_app, (dio_lead _ _ _ Hl). cbn [fold_left dio_see]. rewrite Hx. reflexivity.
  - destruct Hl as (l' & x & y & Hl & Hx & _ & Hs & ->). rewrite fold_left_app, (dio_lead _ _ _ Hl). cbn [fold_left dio_see]. unfold mosi in *. rewrite map_app, Hx. cbn [app].
    unfold status in Hs. assert (E : cmd = 18 \/ cmd = 19 \/ cmd = 20 \/ cmd = 23) by lia. destruct E as [->|[->|[->| ->]]]; reflexivity.
  - destruct Hl as (l' & x & y & Hl & Hx & _ & ->). rewrite fold_left_app, (dio_lead _ _ _ Hl). cbn [fold_left dio_see]. unfold mosi in *. rewrite map_app, Hx. reflexivity.
  - destruct Hl as (l' & x & y & Hl & Hx & _ & ->). rewrite fold_left_app, (dio_lead _ _ _ Hl). cbn [fold_left dio_see]. unfold mosi in *. rewrite map_app, Hx. reflexivity.
  - destruct Hl as [-> _]. reflexivity.
Qed.
Lemma likes_dio bs its : likes bs its -> forall u, fold_left dio_see its u = fold_left bdio bs u.
Proof. induction 1 as [|b l bs its Hb _ IH]; intro u; [reflexivity|]. rewrite fold_left_app, (like_dio _ _ Hb). apply IH. Qed.
Lemma like_start b l : like b l -> startup l = bstart b.
Proof.
  destruct b as [z bs|z cmd vs|z a vs|z off vs|e]; cbn [like]; intros Hl.
  - destruct Hl as (l' & x & Hl & Hx & Hw & ->). rewrite start_app, (start_lead _ _ Hl). cbn [app]. unfold startup. cbn [flat_map]. rewrite Hx, app_nil_r. destruct bs as [|c r]; [reflexivity|]. cbn [writing] in Hw.
    cbn [bstart]. destruct (Z.eq_dec c 23) as [->|N]; [lia|]. destruct c as [|c|c]; try reflexivity. do 5 (destruct c as [c|c|]; try reflexivity). destruct (N eq_refl).
  - destruct Hl as (l' & x & y & Hl & Hx & _ & Hs & ->). rewrite start_app, (start_lead _ _ Hl). unfold startup. cbn [app flat_map]. unfold mosi in *. rewrite map_app, Hx, app_nil_r. cbn [app bstart].
    unfold status in Hs. assert (E : cmd = 18 \/ cmd = 19 \/ cmd = 20 \/ cmd = 23) by lia. destruct E as [->|[->|[->| ->]]]; reflexivity.
  - destruct Hl as (l' & x & y & Hl & Hx & _ & ->). rewrite start_app, (start_lead _ _ Hl). unfold startup. cbn [app flat_map]. unfold mosi in *. rewrite map_app, Hx. reflexivity.
  - destruct Hl as (l' & x & y & Hl & Hx & _ & ->). rewrite start_app, (start_lead _ _ Hl). unfold startup. cbn [app flat_map]. unfold mosi in *. rewrite map_app, Hx. reflexivity.
  - destruct Hl as [-> _]. reflexivity.
Qed.
Lemma likes_start bs its : likes bs its -> startup its = flat_map bstart bs.
Proof. induction 1 as [|b l bs its Hb _ IH]; [reflexivity|]. rewrite start_app, (like_start _ _ Hb), IH. reflexivity. Qed.
Lemma like_regs b l : like b l -> regs126 l = bregs b.
Proof.
  assert (G : forall c p x y, mosi x = c :: p -> c <> 29 -> regs126 [Tr (x ++ y)] = []).
  { intros c p x y Hx N. destruct x as [|[c' w] x]; [discriminate|]. injection Hx as -> _. unfold regs126. cbn [flat_map app]. destruct c as [|c|c]; try reflexivity. do 5 (destruct c as [c|c|]; try reflexivity). destruct (N eq_refl). }
  destruct b as [z bs|z cmd vs|z a vs|z off vs|e]; cbn [like]; intros Hl.
  - destruct Hl as (l' & x & Hl & Hx & Hw & ->). rewrite regs_app, (regs_lead _ _ Hl). destruct bs as [|c r]; [contradiction|]. cbn [writing] in Hw. rewrite <- (app_nil_r x). apply (G c r); [exact Hx|lia].
  - destruct Hl as (l' & x & y & Hl & Hx & _ & Hs & ->). rewrite regs_app, (regs_lead _ _ Hl). apply status_range in Hs. apply (G cmd [255]); [exact Hx|lia].
  - destruct Hl as (l' & x & y & Hl & Hx & Hy & ->). rewrite regs_app, (regs_lead _ _ Hl). destruct x as [|[c0 w0] [|[c1 w1] [|[c2 w2] [|[c3 w3] [|]]]]]; try discriminate. injection Hx as -> -> -> ->. unfold regs126. cbn [app flat_map bregs]. rewrite Hy. reflexivity.
  - destruct Hl as (l' & x & y & Hl & Hx & _ & ->). rewrite regs_app, (regs_lead _ _ Hl). apply (G 30 [off; 255]); [exact Hx|lia].
  - destruct Hl as [-> _]. reflexivity.
Qed.
Lemma likes_regs bs its : likes bs its -> regs126 its = flat_map bregs bs.
Proof. induction 1 as [|b l bs its Hb _ IH]; [reflexivity|]. rewrite regs_app, (like_regs _ _ Hb), IH. reflexivity. Qed.

(** ** C71: the pins signal what the caller waits for *)
Definition full : option (Z * Z * Z * Z) := Some (all_events, all_events, 0, 0).
Definition plain (b : cop) : bool := match b with CW _ bs => match bs with [8; _; _; _; _; _; _; _; _] => false | 132 :: w :: _ => bit w 2 | _ => true end | CD (HReset true) => false | _ => true end.
Lemma plain_dio bs : forallb plain bs = true -> forall u, fold_left bdio bs u = u.
Proof.
  induction bs as [|b bs IH]; intros Hp u; [reflexivity|]. cbn [forallb] in Hp. apply Bool.andb_true_iff in Hp as [Hb Hp]. cbn [fold_left]. rewrite IH by exact Hp.
  destruct b as [z l|z cmd vs|z a vs|z off vs|e]; try reflexivity.
  - cbn [plain bdio] in *. repeat (match goal with |- context [match ?x with _ => _ end] => destruct x end; try reflexivity; try discriminate).
  - destruct e as [[|]| | | | | | | |]; try reflexivity. discriminate.
Qed.
Lemma shape_dio s o v s' bs : shape s o v s' bs -> is_init o = false -> forallb plain bs = true.
Proof.
  destruct o as [hal d| |f|q|b|q|buf|n symb t|cap| | |b]; cbn [shape]; intros Sh Hi; [discriminate| | | | | | | | | | |].
  - destruct Sh as (_ & _ & hal & _ & ->). unfold sleep_ops, opt. destruct (has_io_deinit hal); reflexivity.
  - destruct Sh as (_ & _ & ->). reflexivity.
  - destruct Sh as (d & _ & Sh). destruct (in_range (is_hp d) q); destruct Sh as (_ & _ & Sh); [|subst bs; reflexivity]. destruct (is_hp d); [destruct Sh as (g & _ & ->); reflexivity|]. subst bs. destruct (q =? 15); reflexivity.
  - destruct Sh as (_ & _ & ->). reflexivity.
  - destruct Sh as (_ & _ & hal' & Ho & ->). unfold opt. destruct (has_io_init hal'); reflexivity.
  - destruct Sh as (_ & _ & hal' & Ho & g & _ & ->). unfold opt. destruct (has_ant hal'); reflexivity.
  - destruct Sh as (_ & _ & hal' & Ho & g & _ & ->). unfold rx_tail, opt. destruct (has_ant hal'); reflexivity.
  - destruct Sh as (_ & n & off & data & p0 & p1 & p2 & _ & _ & _ & _ & _ & _ & _ & _ & ->). reflexivity.
  - destruct Sh as (_ & hal' & Ho & g & r0 & r1 & r2 & r3 & _ & _ & _ & _ & _ & _ & ->). unfold rx_tail, sleep_ops, opt. destruct (has_ant hal'), (has_io_deinit hal'); reflexivity.
  - destruct Sh as (_ & x & y & _ & _ & _ & ->). unfold opt. destruct (b_handler s); reflexivity.
  - destruct Sh as (_ & _ & ->). reflexivity.
Qed.
Lemma init_dio s hal d v s' bs u : shape s (PInit hal d) v s' bs -> v = RvBool true -> fold_left bdio bs u = full.
Proof.
  intros (e0 & e1 & _ & _ & -> & _ & ->) X. injection X as ->. unfold init_tail. rewrite !fold_left_app. reflexivity.
Qed.
(** once initialised, all events a caller can wait for are enabled and signalled on DIO1 *)
Theorem C71_sx126x H tr h s hi : henv_ok H -> used126 H tr h s -> transcript h = Some hi -> w_up (wants tr) = true -> dio126 hi = Some (all_events, all_events, 0, 0).
Proof.
  intros HH HU Hh. destruct (used_ind H (fun tr hi s => w_up (wants tr) = true -> dio126 hi = full) HH) with (tr := tr) (h := h) (s := s) as (hi' & -> & F & _ & D); [| |exact HU|].
  - intros o v s' es its bs Hi W L Sh Hu. destruct o; try discriminate. unfold dio126. rewrite (likes_dio _ _ L). eapply init_dio; [exact Sh|]. destruct Sh as (e0 & e1 & _ & _ & -> & _). cbn in Hu. rewrite Hu. reflexivity.
  - intros tr0 hi0 s0 o v s' es its bs IH _ W L Sh Hu. unfold dio126. rewrite fold_left_app. fold (dio126 hi0). rewrite (likes_dio _ _ L). rewrite wants_snoc in Hu. destruct (is_init o) eqn:Hi.
    + destruct o; try discriminate. eapply init_dio; [exact Sh|]. destruct Sh as (e0 & e1 & _ & _ & -> & _). cbn in Hu. rewrite Hu. reflexivity.
    + rewrite (plain_dio _ (shape_dio _ _ _ _ _ Sh Hi)). apply IH. destruct o; try discriminate; try exact Hu. destruct v as [|[|]| |]; exact Hu.
  - rewrite (transcript_unparse _ F) in Hh. injection Hh as <-. exact D.
Qed.
Example C71_sx126x_case : case126 (usual ++ [PSleep; PSetup (par 1 0 true)]) (PRx 255 8 0) (fun c0 tr v hi its =>
  w_up (wants tr) && match dio126 (hi ++ its) with Some (a, _, _, _) => bit a 0 && bit a 1 && bit a 6 && bit a 9 && negb (bit a 2) | None => false end).
Proof. show126 (@nil (Z * list Z)). Qed.

(** ** C72: start-up *)
Lemma init_call H h s hal d v s' es hi its : henv_ok H -> inits126 H h s -> rop_wf (PInit hal d) -> call126 H (PInit hal d) h s = Ok (v, s', es) -> transcript h = Some hi -> transcript es = Some its ->
  exists bs, likes bs its /\ shape s (PInit hal d) v s' bs.
Proof.
  intros HH Hi W E Hh He. assert (X : exists hi', h = unparse hi' /\ Forall item_ok hi').
  { destruct Hi as [[-> _]|[tr HU]]; [exists []; split; [reflexivity|constructor]|]. destruct (used_pos H _ _ _ HH HU) as (hi' & Eh & F & _). eauto. }
  destruct X as (hi' & -> & F). rewrite (transcript_unparse _ F) in Hh. injection Hh as ->.
  destruct (call_inv H hi s _ v s' es HH W (or_introl eq_refl) E) as (its' & bs & -> & F' & L & Sh). rewrite (transcript_unparse _ F') in He. injection He as ->. eauto.
Qed.
Lemma be24_of t : 0 <= t < 65536 -> be24 (64 * t) = let x := u32 (Z.shiftl t 6) in [u8 (Z.shiftr x 16); u8 (Z.shiftr x 8); u8 x].
Proof.
  intro Ht. cbv zeta. rewrite Z.shiftl_mul_pow2 by lia. assert (E : u32 (t * 2 ^ 6) = 64 * t) by (unfold u32; rewrite Z.mod_small; lia). rewrite E, !Z.shiftr_div_pow2 by lia. unfold be24, u8. change (2 ^ 16) with 65536. change (2 ^ 8) with 256.
  f_equal. symmetry. apply Z.mod_small. split; [apply Z.div_pos; lia|]. apply Z.div_lt_upper_bound; lia.
Qed.
(** init succeeds if the chip reports no error after the calibration of all blocks; the
    oscillator and regulator of the board are selected, the former (voltage, and start-up
    time in steps of 15.625 us) before the calibration; nothing is put on the air *)
Theorem C72_sx126x H c0 h s hal d v s' es hi its : henv_ok H -> inits126 H h s -> rop_wf (PInit hal d) ->
  call126 H (PInit hal d) h s = Ok (v, s', es) -> transcript h = Some hi -> transcript es = Some its ->
  exists e0 e1, answers126 23 its = [e0; e1] /\ let ok := (e0 =? 0) && (e1 =? 0) in
    v = RvBool ok /\
    startup its = [[7; 0; 0]] ++ (if use_tcxo d then [151 :: tcxo_voltage d :: be24 (64 * tcxo_timeout d)] else []) ++ [[137; 127]; [23]] ++
      (if ok then [[150; if use_dcdc d then 1 else 0]; [138; 1]] else []) /\
    k_acts (chip126 c0 (hi ++ its)) = k_acts (chip126 c0 hi) /\
    (ok = true -> m_lora (modem126 (chip126 c0 (hi ++ its))) = true /\ m_sync (modem126 (chip126 c0 (hi ++ its))) = sync_word true /\ dio126 (hi ++ its) = Some (all_events, all_events, 0, 0)).
Proof.
  intros HH Hi W E Hh He. destruct (init_call _ _ _ _ _ _ _ _ _ _ HH Hi W E Hh He) as (bs & L & Sh).
  pose proof Sh as Sh0. destruct Sh as (e0 & e1 & _ & _ & -> & _ & ->). exists e0, e1. rewrite (likes_ans 23 _ _ L eq_refl), (likes_start _ _ L), chip_app, (likes_chip _ _ L).
  set (c := chip126 c0 hi). cbv zeta. set (ok := (e0 =? 0) && (e1 =? 0)) in *. cbn [rop_wf] in W. destruct W as [W _]. rewrite (be24_of _ W).
  split; [unfold banswers; rewrite !flat_map_app; unfold init_head, init_tail, sleep_ops, tcxo_ops, opt; destruct ok, (has_io_deinit hal), (use_tcxo d); reflexivity|].
  split; [reflexivity|]. split; [rewrite !flat_map_app; unfold init_head, init_tail, sleep_ops, tcxo_ops, opt; destruct ok, (has_io_deinit hal), (use_tcxo d), (use_dcdc d); reflexivity|].
  split; [rewrite !bchips_app; unfold init_head, init_tail, sleep_ops, tcxo_ops, opt; destruct ok, (has_io_deinit hal), (use_tcxo d); reflexivity|].
  intro X. rewrite X in *. split; [rewrite !bchips_app; unfold init_tail, sleep_ops, opt; destruct (has_io_deinit hal); reflexivity|].
  split; [rewrite !bchips_app; unfold init_tail, sleep_ops, opt; destruct (has_io_deinit hal); reflexivity|].
  unfold dio126. rewrite fold_left_app, (likes_dio _ _ L). eapply init_dio; [exact Sh0|reflexivity].
Qed.
Lemma first_init t hal d P : rop_wfb (PInit hal d) = true -> case (call126 (sim126 t)) d126_0 [] (PInit hal d) P = true ->
  exists H v s' es its, henv_ok H /\ inits126 H [] d126_0 /\ rop_wf (PInit hal d) /\ call126 H (PInit hal d) [] d126_0 = Ok (v, s', es) /\ transcript es = Some its /\ P [] v [] its = true.
Proof.
  unfold case. cbn [go]. intros W E. destruct (call126 (sim126 t) (PInit hal d) [] d126_0) as [[[v s'] es]|] eqn:Ec; [|discriminate].
  destruct (transcript es) as [its|] eqn:Et; [|discriminate]. exists (sim126 t), v, s', es, its. split; [apply sim126_ok|]. split; [left; auto|]. split; [apply rop_wfb_ok, W|]. auto.
Qed.
(** the first call of a program: all is well; the oscillator does not start (error 32) *)
Definition init_good (v : rval) (its : list item) : bool := match v with RvBool b => b | _ => false end && zlist_eqb (concat (startup its)) [7; 0; 0; 151; 2; 0; 80; 0; 137; 127; 23; 150; 1; 138; 1].
Definition init_bad (v : rval) (its : list item) : bool := match v with RvBool b => negb b | _ => false end && (length (startup its) =? 4)%nat && zlist_eqb (answers126 23 its) [0; 32].
Example C72_sx126x_case : exists H v s' es its, henv_ok H /\ inits126 H [] d126_0 /\ rop_wf (PInit hal_full cfg) /\ call126 H (PInit hal_full cfg) [] d126_0 = Ok (v, s', es) /\ transcript es = Some its /\ init_good v its = true.
Proof. apply (first_init [] hal_full cfg (fun _ v _ its => init_good v its)); vm_compute; reflexivity. Qed.
Example C72_sx126x_case2 : exists H v s' es its, henv_ok H /\ inits126 H [] d126_0 /\ rop_wf (PInit hal_full cfg) /\ call126 H (PInit hal_full cfg) [] d126_0 = Ok (v, s', es) /\ transcript es = Some its /\ init_bad v its = true.
Proof. apply (first_init [(23, [0; 0; 32])] hal_full cfg (fun _ v _ its => init_bad v its)); vm_compute; reflexivity. Qed.
(** init again while in use *)
Example C72_sx126x_case3 : case126 (usual ++ [PTx [1; 2; 3]; PPublic false]) (PInit hal_full cfg) (fun c0 tr v hi its =>
  match v with RvBool b => b | _ => false end && (m_sync (modem126 (chip126 c0 (hi ++ its))) =? 52) && negb (m_sync (modem126 (chip126 c0 hi)) =? 52)).
Proof. show126 (@nil (Z * list Z)). Qed.

(** ** C73: sleep and random numbers *)
(** sleep: the chip goes into a warm sleep (settings kept, buffer lost) and is left alone
    for 500 us at least *)
Theorem C73_sx126x_sleep H c0 p tr h s v s' es hi its : henv_ok H -> does126 H tr h s PSleep v s' es hi its ->
  let c := chip126 c0 hi in let c' := chip126 c0 (hi ++ its) in
  pw_run p (hi ++ its) = Some (Cold true) /\ modem126 c' = modem126 c /\ (forall a, k_reg c' a = k_reg c a) /\ k_symb c' = k_symb c /\ k_acts c' = k_acts c.
Proof.
  intros HH (HU & W & E & Hh & He). destruct (used_step H c0 tr h s _ v s' es hi its HH HU W E Hh He) as (bs & L & Sh & _ & _ & ->). cbv zeta.
  destruct Sh as (_ & _ & hal & _ & ->). rewrite sleep_chip. split; [|repeat split].
  destruct (used_pw H p tr h s HH HU) as (hi' & -> & F & q & Eq & Hq). rewrite (transcript_unparse _ F) in Hh. injection Hh as ->. rewrite pw_app, Eq. eapply likes_pw; [exact L|]. apply sleep_pw, Hq.
Qed.
Example C73_sx126x_sleep_case : case126 (usual ++ [PRx 255 8 0]) PSleep (fun c0 tr v hi its =>
  match pw_run (Awake true) hi, pw_run (Awake true) (hi ++ its) with Some (Awake _), Some (Cold true) => true | _, _ => false end && (m_sf (modem126 (chip126 c0 (hi ++ its))) =? 7)).
Proof. show126 (@nil (Z * list Z)). Qed.
(** rand: the four bytes of the random number register (0x819), lowest first, read while
    receiving; the chip sleeps afterwards *)
Theorem C73_sx126x_rand H c0 p tr h s v s' es hi its : henv_ok H -> does126 H tr h s PRand v s' es hi its ->
  let c := chip126 c0 hi in let c' := chip126 c0 (hi ++ its) in
  pw_run p (hi ++ its) = Some (Cold true) /\
  (exists m k n, k_acts c' = k_acts c ++ [Listen m Continuous k n]) /\
  exists a b g rs, its = a ++ b /\ k_acts (chip126 c0 (hi ++ a)) = k_acts c' /\ regs126 a = [(1846, [g])] /\ regs126 b = [(2073, rs)] /\ length rs = 4%nat /\ v = RvNum (from_bytes rs).
Proof.
  intros HH (HU & W & E & Hh & He). destruct (used_step H c0 tr h s _ v s' es hi its HH HU W E Hh He) as (bs & L & Sh & _ & _ & ->). cbv zeta.
  destruct (used_pw H p tr h s HH HU) as (hi' & -> & F & q & Eq & Hq). rewrite (transcript_unparse _ F) in Hh. injection Hh as ->.
  destruct (shape_pw _ _ _ _ _ q Sh (or_intror Hq)) as (q' & Eq' & Hq').
  destruct Sh as (-> & hal & _ & g & r0 & r1 & r2 & r3 & _ & _ & _ & _ & _ & -> & ->).
  split; [rewrite pw_app, Eq, (likes_pw _ _ L q q' Eq'); cbn in Hq'; rewrite Hq'; reflexivity|].
  set (c := chip126 c0 hi). rewrite app_assoc in L |- *. set (x := pkt (b_sleep s) (b_params s) g 255 ++ rx_tail hal 0 16777215) in *. 
  assert (A : k_acts (bchips c (x ++ [CG false 2073 [r0; r1; r2; r3]] ++ sleep_ops false hal)) = k_acts (bchips c x)).
  { rewrite !bchips_app, sleep_chip. reflexivity. }
  rewrite A. split.
  - unfold x. rewrite bchips_app, rx_chip. destruct (pkt_kept c (b_sleep s) (b_params s) g 255) as [_ P]. cbn [k_acts]. rewrite P. do 3 eexists. reflexivity.
  - apply likes_app_inv in L as (a & b & -> & La & Lb). exists a, b, g, [r0; r1; r2; r3]. split; [reflexivity|]. rewrite chip_app, (likes_chip _ _ La), (likes_regs _ _ La), (likes_regs _ _ Lb).
    split; [reflexivity|]. split; [unfold x, rx_tail, opt; destruct (has_ant hal); reflexivity|]. split; [unfold sleep_ops, opt; destruct (has_io_deinit hal); reflexivity|]. split; [reflexivity|].
    f_equal. cbn [from_bytes]. lia.
Qed.
Example C73_sx126x_rand_case : case126 usual PRand (fun c0 tr v hi its => match v with RvNum n => n =? 1 + 256 * 2 + 65536 * 3 + 16777216 * 4 | _ => false end && (length (k_acts (chip126 c0 (hi ++ its))) =? 1)%nat).
Proof. show126 [(29, [0; 0; 0; 1; 2; 3; 4])]. Qed.

Print Assumptions C71_sx126x.
Print Assumptions C72_sx126x.
Print Assumptions C73_sx126x_sleep.
Print Assumptions C73_sx126x_rand.
