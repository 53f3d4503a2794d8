(** Prop_Board6.v -- C66 for the SX126x driver: the board's hooks *)
From Verif Require Import LWant6 DemoRadio SpecBoard.

Lemma hal_snoc tr o v es : hal_of (tr ++ [(o, v, es)]) = match o with PInit hal _ => Some hal | _ => hal_of tr end.
Proof. unfold hal_of. rewrite fold_left_app. reflexivity. Qed.
Lemma used_hal H tr h s : henv_ok H -> used126 H tr h s -> b_hal s = hal_of tr.
Proof.
  intros HH HU. destruct (used_ind H (fun tr _ s => b_hal s = hal_of tr) HH) with (tr := tr) (h := h) (s := s) as (hi & A & B & _ & D); [| |exact HU|exact D].
  - intros o v s' es its bs Hi W L Sh. destruct o; try discriminate. destruct Sh as (e0 & e1 & _ & _ & _ & -> & _). reflexivity.
  - intros tr0 hi s0 o v s' es its bs IH _ W L Sh. rewrite hal_snoc.
    destruct o as [hal d| |f|q|b|q|buf|n symb t|cap| | |b]; cbn [shape] in Sh; try (destruct Sh as (_ & -> & _); exact IH); try (destruct Sh as (-> & _); exact IH).
    + destruct Sh as (e0 & e1 & _ & _ & _ & -> & _). reflexivity.
    + destruct Sh as (d & Hd & Sh). destruct (in_range (is_hp d) q); destruct Sh as (_ & -> & _); exact IH.
Qed.
Definition hook (e : hev) : bool := match e with HReset _ | HIoInit | HIoDeinit | HAnt _ => true | _ => false end.
Definition hooks (bs : list cop) : list hev := filter hook (bcalls bs).
Lemma hooks_app a b : hooks (a ++ b) = hooks a ++ hooks b. Proof. unfold hooks, bcalls. rewrite flat_map_app. apply filter_app. Qed.
Lemma board_app a b : board (a ++ b) = board a ++ board b. Proof. unfold board, calls. rewrite flat_map_app. apply filter_app. Qed.
Lemma lead_board z l : lead z l -> board l = []. Proof. destruct z; [intros (x & y & _ & _ & ->)|intros ->]; reflexivity. Qed.
Lemma like_board b l : like b l -> board l = hooks [b].
Proof.
  destruct b; cbn [like]; intro Hl.
  - destruct Hl as (l' & x & Hl & _ & _ & ->). rewrite board_app, (lead_board _ _ Hl). reflexivity.
  - destruct Hl as (l' & x & y & Hl & _ & _ & _ & ->). rewrite board_app, (lead_board _ _ Hl). reflexivity.
  - destruct Hl as (l' & x & y & Hl & _ & _ & ->). rewrite board_app, (lead_board _ _ Hl). reflexivity.
  - destruct Hl as (l' & x & y & Hl & _ & _ & ->). rewrite board_app, (lead_board _ _ Hl). reflexivity.
  - destruct Hl as [-> _]. reflexivity.
Qed.
Lemma board_hooks bs its : likes bs its -> board its = hooks bs.
Proof. induction 1 as [|b l bs its Hb _ IH]; [reflexivity|]. change (b :: bs) with ([b] ++ bs). rewrite board_app, hooks_app, IH, (like_board _ _ Hb). reflexivity. Qed.

(** ** C66: which hooks are called, and when *)
Theorem C66_sx126x H tr h s o v s' es hi its hal : henv_ok H -> does126 H tr h s o v s' es hi its -> hal_of tr = Some hal ->
  match o with
  | PInit hal' _ => board its = [HReset true; HReset false] ++
      if has_io_deinit hal' then match v with RvBool true => [HIoDeinit; HIoDeinit] | _ => [HIoDeinit] end else []
  | PSetup _ => board its = if has_io_init hal then [HIoInit] else []
  | PSleep => board its = if has_io_deinit hal then [HIoDeinit] else []
  | PTx _ => board its = if has_ant hal then [HAnt false] else []
  | PRx _ _ _ => board its = if has_ant hal then [HAnt true] else []
  | PRand => board its = (if has_ant hal then [HAnt true] else []) ++ (if has_io_deinit hal then [HIoDeinit] else [])
  | _ => board its = []
  end.
Proof.
  intros HH (HU & W & E & Hh & He) Hal. destruct (used_step H on126 tr h s o v s' es hi its HH HU W E Hh He) as (bs & L & Sh & _).
  rewrite (board_hooks _ _ L). pose proof (used_hal H tr h s HH HU) as Hs. rewrite Hal in Hs. clear L Hal.
  destruct o as [hal' d| |f|q|b|q|buf|n symb t|cap| | |b]; cbn [shape] in Sh.
  - destruct Sh as (e0 & e1 & _ & _ & -> & _ & ->). rewrite !hooks_app. unfold init_head, init_tail, sleep_ops, tcxo_ops, opt. destruct ((e0 =? 0) && (e1 =? 0)), (has_io_deinit hal'), (use_tcxo d); reflexivity.
  - destruct Sh as (_ & _ & hal' & Ho & ->). rewrite Hs in Ho. injection Ho as <-. unfold sleep_ops, opt. destruct (has_io_deinit hal); reflexivity.
  - destruct Sh as (_ & _ & ->). reflexivity.
  - destruct Sh as (d & _ & Sh). destruct (in_range (is_hp d) q); destruct Sh as (_ & _ & Sh); [|subst bs; reflexivity]. destruct (is_hp d); [destruct Sh as (g & _ & ->); reflexivity|]. subst bs. rewrite hooks_app. destruct (q =? 15); reflexivity.
  - destruct Sh as (_ & _ & ->). reflexivity.
  - destruct Sh as (_ & _ & hal' & Ho & ->). rewrite Hs in Ho. injection Ho as <-. rewrite hooks_app. unfold opt. destruct (has_io_init hal); reflexivity.
  - destruct Sh as (_ & _ & hal' & Ho & g & _ & ->). rewrite Hs in Ho. injection Ho as <-. rewrite !hooks_app. unfold opt. destruct (has_ant hal); reflexivity.
  - destruct Sh as (_ & _ & hal' & Ho & g & _ & ->). rewrite Hs in Ho. injection Ho as <-. rewrite !hooks_app. unfold rx_tail, opt. destruct (has_ant hal); reflexivity.
  - destruct Sh as (_ & n & off & data & p0 & p1 & p2 & _ & _ & _ & _ & _ & _ & _ & _ & ->). reflexivity.
  - destruct Sh as (_ & hal' & Ho & g & r0 & r1 & r2 & r3 & _ & _ & _ & _ & _ & _ & ->). rewrite Hs in Ho. injection Ho as <-. rewrite !hooks_app. unfold rx_tail, sleep_ops, opt. destruct (has_ant hal), (has_io_deinit hal); reflexivity.
  - destruct Sh as (_ & x & y & _ & _ & _ & ->). rewrite hooks_app. unfold opt. destruct (b_handler s); reflexivity.
  - destruct Sh as (_ & _ & ->). reflexivity.
Qed.
Example C66_sx126x_case : case126 [PInit hal_full cfg; PSetup (par 1 0 false)] PRand (fun c0 tr v hi its =>
  (length (board its) =? 2)%nat && (length (board hi) =? 5)%nat && match hal_of tr with Some x => has_ant x | None => false end).
Proof. show126 (@nil (Z * list Z)). Qed.

Lemma likes_app_inv a : forall b its, likes (a ++ b) its -> exists x y, its = x ++ y /\ likes a x /\ likes b y.
Proof.
  induction a as [|c a IH]; intros b its L; [exists [], its; repeat split; [constructor|exact L]|].
  cbn [app] in L. inversion L as [|? l ? its' Hc L' E1 E2]. subst. destruct (IH _ _ L') as (x & y & -> & La & Lb). exists (l ++ x), y. rewrite app_assoc. repeat split; [constructor; assumption|exact Lb].
Qed.
(** the antenna switch is set before the radio starts *)
Theorem C66_sx126x_antenna H c0 tr h s o v s' es hi its hal : henv_ok H -> does126 H tr h s o v s' es hi its -> hal_of tr = Some hal -> has_ant hal = true ->
  match o with
  | PTx _ => switched_first false (fun its => k_acts (chip126 c0 its)) hi its
  | PRx _ _ _ | PRand => switched_first true (fun its => k_acts (chip126 c0 its)) hi its
  | _ => True
  end.
Proof.
  intros HH (HU & W & E & Hh & He) Hal Ha. destruct (used_step H c0 tr h s o v s' es hi its HH HU W E Hh He) as (bs & L & Sh & _).
  pose proof (used_hal H tr h s HH HU) as Hs. rewrite Hal in Hs. clear Hal.
  assert (G : forall rx x m, (forall c, k_acts (bchips c x) = k_acts c) -> likes (x ++ [CD (HAnt rx)] ++ m) its -> switched_first rx (fun its => k_acts (chip126 c0 its)) hi its).
  { intros rx x m Hx L'. apply likes_app_inv in L' as (a & l & -> & La & Ll). apply likes_app_inv in Ll as (i & b & -> & Li & _).
    inversion Li as [|? l ? its' Hc Ln E1 E2]. subst. inversion Ln. subst. cbn [like] in Hc. destruct Hc as [-> _]. exists a, b. split; [reflexivity|]. rewrite chip_app. rewrite (likes_chip _ _ La). apply Hx. }
  destruct o as [hal' d| |f|q|b|q|buf|n symb t|cap| | |b]; cbn [shape] in Sh; try exact I.
  - destruct Sh as (_ & _ & hal' & Ho & g & _ & ->). rewrite Hs in Ho. injection Ho as <-. unfold opt in L. rewrite Ha in L.
    apply (G false (pkt (b_sleep s) (b_params s) g (len buf) ++ [CW false [143; 0; 0]; CW false (14 :: 0 :: buf)]) [CW false [131; 0; 0; 0]]); [|rewrite <- app_assoc; exact L].
    intro c. rewrite bchips_app. apply (proj2 (pkt_kept c (b_sleep s) (b_params s) g (len buf))).
  - destruct Sh as (_ & _ & hal' & Ho & g & _ & ->). rewrite Hs in Ho. injection Ho as <-. unfold rx_tail, opt in L. rewrite Ha in L. cbv zeta in L. rewrite !app_assoc in L. rewrite <- app_assoc in L. rewrite <- app_assoc in L. rewrite app_assoc in L.
    eapply G; [|exact L]. intro c. rewrite bchips_app. apply (proj2 (pkt_kept c (b_sleep s) (b_params s) g n)).
  - destruct Sh as (_ & hal' & Ho & g & r0 & r1 & r2 & r3 & _ & _ & _ & _ & _ & _ & ->). rewrite Hs in Ho. injection Ho as <-. unfold rx_tail, opt in L. rewrite Ha in L. cbv zeta in L.
    eapply (G true (pkt (b_sleep s) (b_params s) g 255 ++ [CW false [160; u8 0]; CW false [143; 0; 0]])); [|rewrite <- !app_assoc in L |- *; exact L]. intro c. rewrite bchips_app. apply (proj2 (pkt_kept c (b_sleep s) (b_params s) g 255)).
Qed.
Example C66_sx126x_antenna_case : case126 [PInit hal_full cfg; PSetup (par 1 0 false); PTx [1]] (PRx 255 8 0) (fun c0 tr v hi its =>
  (length (k_acts (chip126 c0 (hi ++ its))) =? 2)%nat && match hal_of tr with Some x => has_ant x | None => false end).
Proof. show126 (@nil (Z * list Z)). Qed.

Print Assumptions C66_sx126x.
Print Assumptions C66_sx126x_antenna.

(** init as the first call of a program *)
Theorem C66_sx126x_init H hal d v s' es its : henv_ok H -> rop_wf (PInit hal d) -> call126 H (PInit hal d) [] d126_0 = Ok (v, s', es) -> transcript es = Some its ->
  board its = [HReset true; HReset false] ++ if has_io_deinit hal then match v with RvBool true => [HIoDeinit; HIoDeinit] | _ => [HIoDeinit] end else [].
Proof.
  intros HH W E He.
  change (@nil hev) with (unparse []) in E. destruct (call_inv H [] d126_0 _ v s' es HH W (or_introl eq_refl) E) as (its' & bs & -> & F & L & Sh).
  rewrite (transcript_unparse _ F) in He. injection He as ->.
  rewrite (board_hooks _ _ L). destruct Sh as (e0 & e1 & _ & _ & -> & _ & ->). rewrite !hooks_app. unfold init_head, init_tail, sleep_ops, tcxo_ops, opt. destruct ((e0 =? 0) && (e1 =? 0)), (has_io_deinit hal), (use_tcxo d); reflexivity.
Qed.
Print Assumptions C66_sx126x_init.
Example C66_sx126x_init_case : match call126 (sim126 []) (PInit hal_full cfg) [] d126_0 with Ok (RvBool true, _, es) => match transcript es with Some its => (length (board its) =? 4)%nat | None => false end | _ => false end = true.
Proof. vm_compute. reflexivity. Qed.
