(** Prop_Board7.v -- C66 for the SX127x driver: the board's hooks *)
From Verif Require Import LAir7 DemoRadio SpecBoard.

Lemma hal_snoc tr o v es : hal_of (tr ++ [(o, v, es)]) = match o with PInit hal _ => Some hal | _ => hal_of tr end.
Proof. unfold hal_of. rewrite fold_left_app. reflexivity. Qed.
Lemma shape_hal H c0 c s o v s' bs : shape H c0 c s o v s' bs -> a_hal s' = match o with PInit hal _ => Some hal | _ => a_hal s end.
Proof.
  destruct o as [hal d| |f|q|b|q|buf|n symb t|cap| | |b]; cbn [shape]; intro Sh; try (destruct Sh as (-> & _); reflexivity).
  destruct ((q <? -4) || (17 <? q)); destruct Sh as (-> & _); reflexivity.
Qed.
Lemma used_hal H tr h s : henv_ok H -> used127 H tr h s -> a_hal s = hal_of tr.
Proof.
  intros HH. apply (rexec_ind2 H (fun tr h s => a_hal s = hal_of tr)).
  - intros o v s' es Hi W E. change (@nil hev) with (unparse []) in E. destruct (call_inv H (Mk_c127 reset127 (fun _ => 0) []) [] d127_0 o v s' es HH (Forall_nil _) W (or_introl Hi) E) as (its & bs & -> & F & L & Sh).
    rewrite (shape_hal _ _ _ _ _ _ _ _ Sh). destruct o; try discriminate. reflexivity.
  - intros tr0 h0 s0 o v s' es HU IH W E.
    destruct (used_call H (Mk_c127 reset127 (fun _ => 0) []) _ _ _ _ _ _ _ HH HU W E) as (hi & its & bs & _ & _ & _ & Sh & _ & _).
    rewrite (shape_hal _ _ _ _ _ _ _ _ Sh), hal_snoc, IH. reflexivity.
Qed.
Definition hooks (bs : list bop) : list hev := filter (fun e => match e with HReset _ | HIoInit | HIoDeinit | HAnt _ => true | _ => false end) (bcalls bs).
Lemma hooks_app a b : hooks (a ++ b) = hooks a ++ hooks b. Proof. unfold hooks. rewrite bcalls_app. apply filter_app. Qed.
Lemma board_hooks bs its : Forall2 like bs its -> board its = hooks bs. Proof. intro L. unfold board. rewrite (proj1 (like_calls _ _ L)). reflexivity. Qed.
Lemma mode_hooks H c0 c k m : mode_to H c0 c k m -> hooks m = []. Proof. intros (v & w & _ & _ & _ & _ & ->). reflexivity. Qed.
Lemma polls_hooks a rs : hooks (polls a rs) = []. Proof. induction rs; [reflexivity|]. exact IHrs. Qed.

(** ** C66: which hooks are called, and when *)
Theorem C66_sx127x H tr h s o v s' es hi its hal : henv_ok H -> does127 H tr h s o v s' es hi its -> hal_of tr = Some hal ->
  match o with
  | PInit hal' _ => board its = [HReset true; HReset false] ++ if has_io_deinit hal' then [HIoDeinit] else []
  | PSetup _ => board its = if has_io_init hal then [HIoInit] else []
  | PSleep => board its = if has_io_deinit hal then [HIoDeinit] else []
  | PTx _ => board its = if has_ant hal then [HAnt false] else []
  | PRx _ _ _ => board its = if has_ant hal then [HAnt true] else []
  | _ => board its = []
  end.
Proof.
  intros HH (HU & W & E & Hh & He) Hal. destruct (used_step H (Mk_c127 reset127 (fun _ => 0) []) tr h s o v s' es hi its HH HU W E Hh He) as (bs & L & Sh & _).
  rewrite (board_hooks _ _ L). pose proof (used_hal H tr h s HH HU) as Hs. rewrite Hal in Hs. clear L Hal.
  destruct o as [hal' d| |f|q|b|q|buf|n symb t|cap| | |b]; cbn [shape] in Sh.
  - destruct Sh as (_ & ver & _ & [(_ & _ & ->)|(_ & x & w & rs & ok & _ & _ & _ & _ & _ & _ & _ & _ & ->)]); rewrite !hooks_app, ?polls_hooks; unfold init_head, opt; destruct (has_io_deinit hal'); [| | |]; try destruct ok; reflexivity.
  - destruct Sh as (_ & _ & hal' & Ho & m & Hm & ->). rewrite Hs in Ho. injection Ho as <-. rewrite hooks_app, (mode_hooks _ _ _ _ _ Hm). unfold opt. destruct (has_io_deinit hal); reflexivity.
  - destruct Sh as (_ & _ & ->). reflexivity.
  - destruct ((q <? -4) || (17 <? q)); destruct Sh as (_ & _ & ->); reflexivity.
  - destruct Sh as (_ & _ & ->). reflexivity.
  - destruct Sh as (_ & _ & hal' & Ho & m & Hm & ->). rewrite Hs in Ho. injection Ho as <-. rewrite !hooks_app, (mode_hooks _ _ _ _ _ Hm). unfold opt. destruct (has_io_init hal); reflexivity.
  - destruct Sh as (_ & _ & hal' & Ho & m & Hm & ->). rewrite Hs in Ho. injection Ho as <-. rewrite !hooks_app, (mode_hooks _ _ _ _ _ Hm). unfold opt. destruct (has_ant hal); reflexivity.
  - destruct Sh as (_ & _ & hal' & Ho & x & _ & _ & m & Hm & ->). rewrite Hs in Ho. injection Ho as <-. rewrite !hooks_app, (mode_hooks _ _ _ _ _ Hm). unfold opt. destruct (has_ant hal); reflexivity.
  - destruct Sh as (_ & ptr & n & data & snr & rssi & _ & _ & _ & _ & _ & _ & _ & ->). rewrite !hooks_app. destruct (0 <? Z.min cap n); reflexivity.
  - destruct Sh as (_ & m1 & rs & m2 & H1 & H2 & _ & _ & _ & ->). rewrite !hooks_app, (mode_hooks _ _ _ _ _ H1), (mode_hooks _ _ _ _ _ H2), polls_hooks. reflexivity.
  - destruct Sh as (_ & f & _ & _ & ->). rewrite hooks_app. unfold opt. destruct (a_handler s); reflexivity.
  - destruct Sh as (_ & _ & ->). reflexivity.
Qed.
Example C66_sx127x_case : case127 [PInit hal_full cfg; PSetup (par 1 0 false)] (PTx [1; 2; 3]) (fun c0 tr v hi its =>
  (length (board its) =? 1)%nat && (length (board hi) =? 4)%nat && match hal_of tr with Some x => has_ant x | None => false end).
Proof. show127 [(66,[18]);(59,[0])]. Qed.
(** the antenna switch is set before the radio starts *)
Theorem C66_sx127x_antenna H c0 tr h s o v s' es hi its hal : henv_ok H -> does127 H tr h s o v s' es hi its -> hal_of tr = Some hal -> has_ant hal = true ->
  match o with
  | PTx _ => switched_first false (fun its => c_acts (chip127 c0 its)) hi its
  | PRx _ _ _ => switched_first true (fun its => c_acts (chip127 c0 its)) hi its
  | _ => True
  end.
Proof.
  intros HH (HU & W & E & Hh & He) Hal Ha. destruct (used_step H c0 tr h s o v s' es hi its HH HU W E Hh He) as (bs & L & Sh & _).
  pose proof (used_hal H tr h s HH HU) as Hs. rewrite Hal in Hs. clear Hal.
  assert (G : forall rx x m, (forall c, c_acts (bchips c x) = c_acts c) -> Forall2 like ((x ++ [BD (HAnt rx)]) ++ m) its -> switched_first rx (fun its => c_acts (chip127 c0 its)) hi its).
  { intros rx x m Hx L'. rewrite <- app_assoc in L'. apply Forall2_app_inv_l in L' as (a & l & La & Ll & ->). inversion Ll as [|? i ? b Hi Lb]; subst. destruct i as [|e]; cbn in Hi; [contradiction|]. destruct Hi as [-> _].
    exists a, b. split; [reflexivity|]. unfold chip127. rewrite fold_left_app. fold (chip127 c0 hi). fold (chip127 (chip127 c0 hi) a). rewrite (like_chip _ _ La). apply Hx. }
  destruct o as [hal' d| |f|q|b|q|buf|n symb t|cap| | |b]; cbn [shape] in Sh; try exact I.
  - destruct Sh as (_ & _ & hal' & Ho & m & Hm & ->). rewrite Hs in Ho. injection Ho as <-. unfold opt in L. rewrite Ha in L. eapply G; [|exact L]. intro c.
    unfold bchips. cbn [fold_left bchip]. rewrite !burst_acts; try reflexivity; try lia; (right; cbn; lia) || (left; reflexivity).
  - destruct Sh as (_ & _ & hal' & Ho & x & _ & _ & m & Hm & ->). rewrite Hs in Ho. injection Ho as <-. unfold opt in L. rewrite Ha in L. eapply G; [|exact L]. intro c. reflexivity.
Qed.
Example C66_sx127x_antenna_case : case127 [PInit hal_full cfg; PSetup (par 1 0 false); PTx [1]] (PRx 255 8 0) (fun c0 tr v hi its =>
  (length (c_acts (chip127 c0 (hi ++ its))) =? 2)%nat && match hal_of tr with Some x => has_ant x | None => false end).
Proof. show127 [(66,[18]);(59,[0])]. Qed.

Print Assumptions C66_sx127x.
Print Assumptions C66_sx127x_antenna.

(** init as the first call of a program *)
Theorem C66_sx127x_init H hal d v s' es its : henv_ok H -> rop_wf (PInit hal d) -> call127 H (PInit hal d) [] d127_0 = Ok (v, s', es) -> transcript es = Some its ->
  board its = [HReset true; HReset false] ++ if has_io_deinit hal then [HIoDeinit] else [].
Proof.
  intros HH W E He.
  change (@nil hev) with (unparse []) in E. destruct (call_inv H (Mk_c127 reset127 (fun _ => 0) []) [] d127_0 _ v s' es HH (Forall_nil _) W (or_introl eq_refl) E) as (its' & bs & -> & F & L & Sh).
  rewrite (transcript_unparse _ F) in He. injection He as ->.
  rewrite (board_hooks _ _ L).
  destruct Sh as (_ & ver & _ & [(_ & _ & ->)|(_ & x & w & rs & ok & _ & _ & _ & _ & _ & _ & _ & _ & ->)]); rewrite !hooks_app, ?polls_hooks; unfold init_head, opt; destruct (has_io_deinit hal); [| | |]; try destruct ok; reflexivity.
Qed.
Print Assumptions C66_sx127x_init.
Example C66_sx127x_init_case : match call127 (sim127 [(66, [18]); (59, [0])] on127) (PInit hal_full cfg) [] d127_0 with Ok (RvBool true, _, es) => match transcript es with Some its => (length (board its) =? 3)%nat | None => false end | _ => false end = true.
Proof. vm_compute. reflexivity. Qed.
