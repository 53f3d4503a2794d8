(** Prop_Front6.v -- C74 for the SX126x driver *)
From Verif Require Import LWant6 DemoRadio SpecFront Prop_Irq6.
Local Definition low : Sx126x.sx126x_opts := Sx126x.Mk_opts false false false 0 0.
Local Definition usual := [PInit hal_full cfg; PHandler true; PFreq 868100000; PPower 14; PPublic true; PSetup (par 1 0 false)].

Definition bfront (u : front) (b : cop) : front := match b with CW _ bs => front_cmd u bs | CD (HReset true) => front0 | _ => u end.
Lemma front_lead z l u : lead z l -> fold_left front_see l u = u.
Proof. destruct z; [intros (x & y & Hx & Hy & ->)|intros ->; reflexivity]. cbn [fold_left front_see]. rewrite Hx, Hy. reflexivity. Qed.
Lemma like_front b l : like b l -> forall u, fold_left front_see l u = bfront u b.
Proof.
  destruct b as [z bs|z cmd vs|z a vs|z off vs|e]; cbn [like]; intros Hl u.
  - destruct Hl as (l' & x & Hl & Hx & _ & ->). rewrite fold_left_app, (front_lead _ _ _ Hl). cbn [fold_left front_see]. rewrite Hx. reflexivity.
  - destruct Hl as (l' & x & y & Hl & Hx & _ & Hs & ->). rewrite fold_left_app, (front_lead _ _ _ Hl). cbn [fold_left front_see]. unfold mosi in *. rewrite map_app, Hx. cbn [app].
    unfold status in Hs. assert (E : cmd = 18 \/ cmd = 19 \/ cmd = 20 \/ cmd = 23) by lia. destruct E as [->|[->|[->| ->]]]; reflexivity.
  - destruct Hl as (l' & x & y & Hl & Hx & _ & ->). rewrite fold_left_app, (front_lead _ _ _ Hl). cbn [fold_left front_see]. unfold mosi in *. rewrite map_app, Hx. reflexivity.
  - destruct Hl as (l' & x & y & Hl & Hx & _ & ->). rewrite fold_left_app, (front_lead _ _ _ Hl). cbn [fold_left front_see]. unfold mosi in *. rewrite map_app, Hx. reflexivity.
  - destruct Hl as [-> _]. reflexivity.
Qed.
Lemma likes_front bs its : likes bs its -> forall u, fold_left front_see its u = fold_left bfront bs u.
Proof. induction 1 as [|b l bs its Hb _ IH]; intro u; [reflexivity|]. rewrite fold_left_app, (like_front _ _ Hb). apply IH. Qed.

(** the settings after a call, from those before *)
Lemma shape_front s o v s' bs u : shape s o v s' bs -> fold_left bfront bs u =
  match o with
  | PInit _ d => Mk_front None None None (if use_tcxo d then Some 0 else None)
  | PFreq _ => Mk_front (Some (215, 219)) (f_ocp u) (f_ramp u) (f_trim u)
  | PPower p => match v with RvBool true => Mk_front (f_image u) (Some (match b_opts s with Some d => if is_hp d then 56 else 24 | None => 0 end)) (Some 2) (f_trim u) | _ => u end
  | _ => u
  end.
Proof.
  destruct o as [hal d| |f|q|b|q|buf|n symb t|cap| | |b]; cbn [shape]; intros Sh.
  - destruct Sh as (e0 & e1 & _ & _ & _ & _ & ->). unfold init_head, init_tail, sleep_ops, tcxo_ops, opt. destruct ((e0 =? 0) && (e1 =? 0)), (use_tcxo d), (has_io_deinit hal); reflexivity.
  - destruct Sh as (_ & _ & hal & _ & ->). unfold sleep_ops, opt. destruct (has_io_deinit hal); reflexivity.
  - destruct Sh as (_ & _ & ->). reflexivity.
  - destruct Sh as (d & -> & Sh). destruct (in_range (is_hp d) q); destruct Sh as (-> & _ & Sh); [|subst bs; reflexivity]. destruct (is_hp d); [destruct Sh as (g & _ & ->); reflexivity|]. subst bs. destruct (q =? 15); reflexivity.
  - destruct Sh as (_ & _ & ->). destruct b; reflexivity.
  - destruct Sh as (_ & _ & hal' & Ho & ->). unfold opt. destruct (has_io_init hal'); reflexivity.
  - destruct Sh as (_ & _ & hal' & Ho & g & _ & ->). unfold pkt, opt. destruct (has_ant hal'); reflexivity.
  - destruct Sh as (_ & _ & hal' & Ho & g & _ & ->). unfold pkt, rx_tail, opt. destruct (has_ant hal'); reflexivity.
  - destruct Sh as (_ & n & off & data & p0 & p1 & p2 & _ & _ & _ & _ & _ & _ & _ & _ & ->). reflexivity.
  - destruct Sh as (_ & hal' & Ho & g & r0 & r1 & r2 & r3 & _ & _ & _ & _ & _ & _ & ->). unfold pkt, rx_tail, sleep_ops, opt. destruct (has_ant hal'), (has_io_deinit hal'); reflexivity.
  - destruct Sh as (_ & x & y & _ & _ & _ & ->). unfold opt. destruct (b_handler s); reflexivity.
  - destruct Sh as (_ & _ & ->). reflexivity.
Qed.
Definition front_state (tr : list rentry) (hi : list item) (s : d126) : Prop :=
  (exists d, b_opts s = Some d /\ is_hp d = hp tr /\ use_tcxo d = tcxo tr) /\
  (w_freq (wants tr) <> None -> f_image (front126 hi) = Some (215, 219)) /\
  (w_dbm (wants tr) <> None -> f_ocp (front126 hi) = Some (if hp tr then 56 else 24) /\ f_ramp (front126 hi) = Some 2) /\
  (tcxo tr = true -> f_trim (front126 hi) = Some 0).
Lemma hp_snoc tr o v es : hp (tr ++ [(o, v, es)]) = match o with PInit _ d => is_hp d | _ => hp tr end.
Proof. unfold hp. rewrite fold_left_app. reflexivity. Qed.
Lemma tcxo_snoc tr o v es : tcxo (tr ++ [(o, v, es)]) = match o with PInit _ d => use_tcxo d | _ => tcxo tr end.
Proof. unfold tcxo. rewrite fold_left_app. reflexivity. Qed.
Lemma init_front tr hi s hal d v s' es its bs : likes bs its -> shape s (PInit hal d) v s' bs -> front_state (tr ++ [(PInit hal d, v, es)]) (hi ++ its) s'.
Proof.
  intros L Sh. unfold front_state. rewrite hp_snoc, tcxo_snoc, wants_snoc. unfold front126. rewrite fold_left_app, (likes_front _ _ L), (shape_front _ _ _ _ _ _ Sh).
  destruct Sh as (e0 & e1 & _ & _ & -> & -> & _). cbn. split; [eauto|]. split; [congruence|]. split; [congruence|]. intros ->. reflexivity.
Qed.
Lemma opts_kept s o v s' bs : shape s o v s' bs -> is_init o = false -> b_opts s' = b_opts s.
Proof.
  destruct o as [hal d| |f|q|b|q|buf|n symb t|cap| | |b]; cbn [shape]; intros Sh Hi; [discriminate|..]; repeat match goal with X : exists _, _ |- _ => destruct X | X : _ /\ _ |- _ => destruct X end; subst; try reflexivity.
  destruct (in_range (is_hp x) q); destruct H0 as (_ & -> & _); reflexivity.
Qed.
Lemma used_front H tr h s : henv_ok H -> used126 H tr h s -> exists hi, h = unparse hi /\ Forall item_ok hi /\ front_state tr hi s.
Proof.
  intros HH HU. destruct (used_ind H front_state HH) with (tr := tr) (h := h) (s := s) as (hi & A & B & _ & C); [| |exact HU|eauto].
  - intros o v s' es its bs Hi W L Sh. destruct o; try discriminate. apply (init_front [] [] d126_0 _ _ _ _ _ _ bs L Sh).
  - intros tr0 hi0 s0 o v s' es its bs IH _ W L Sh. destruct (is_init o) eqn:Hi; [destruct o; try discriminate; eapply init_front; eassumption|].
    destruct IH as ((d & Ed & Eh & Et) & I1 & I2 & I3). unfold front_state. rewrite hp_snoc, tcxo_snoc, wants_snoc, (opts_kept _ _ _ _ _ Sh Hi). unfold front126. rewrite fold_left_app. fold (front126 hi0). rewrite (likes_front _ _ L), (shape_front _ _ _ _ _ _ Sh).
    clear L Sh W. destruct o; try discriminate; (split; [eauto|]); rewrite ?Ed, ?Eh; destruct v as [|[|]| |]; cbn [see not_ready w_freq w_dbm f_image f_ocp f_ramp f_trim]; auto.
Qed.
(** ** C74 *)
(** the over-current limit is the one of the amplifier in use, 140 mA or 60 mA, and the
    ramp time 40 us from the first accepted set_power on; the crystal trim is 0 with a TCXO *)
Theorem C74_sx126x H tr h s hi : henv_ok H -> used126 H tr h s -> transcript h = Some hi ->
  (w_dbm (wants tr) <> None -> f_ocp (front126 hi) = Some (if hp tr then 56 else 24) /\ f_ramp (front126 hi) = Some 2) /\
  (tcxo tr = true -> f_trim (front126 hi) = Some 0).
Proof.
  intros HH HU Hh. destruct (used_front H tr h s HH HU) as (hi' & -> & F & _ & _ & A & B). rewrite (transcript_unparse _ F) in Hh. injection Hh as ->. auto.
Qed.
Example C74_sx126x_case : case126 (usual ++ [PSleep]) (PTx [1; 2]) (fun c0 tr v hi its => match w_dbm (wants tr) with Some p => p =? 14 | None => false end && hp tr && tcxo tr &&
  match f_ocp (front126 hi), f_trim (front126 hi) with Some x, Some y => (x =? 56) && (y =? 0) | _, _ => false end).
Proof. show126 (@nil (Z * list Z)). Qed.
Example C74_sx126x_case2 : case126 [PInit hal_full low; PPower 15] (PTx [1; 2]) (fun c0 tr v hi its => match w_dbm (wants tr) with Some p => p =? 15 | None => false end && negb (hp tr) &&
  match f_ocp (front126 hi) with Some x => x =? 24 | _ => false end).
Proof. show126 (@nil (Z * list Z)). Qed.
(** the image calibration covers the carrier from 860 to 876 MHz *)
Theorem C74_sx126x_image_partial H tr h s hi f : henv_ok H -> used126 H tr h s -> transcript h = Some hi -> w_freq (wants tr) = Some f -> 860000000 <= f <= 876000000 -> image_ok f (front126 hi).
Proof.
  intros HH HU Hh Hf Hr. destruct (used_front H tr h s HH HU) as (hi' & -> & F & _ & A & _ & _). rewrite (transcript_unparse _ F) in Hh. injection Hh as ->.
  exists 215, 219. split; [apply A; congruence|lia].
Qed.
Example C74_sx126x_image_case : case126 (usual ++ [PSleep; PFreq 869525000]) (PRx 255 8 0) (fun c0 tr v hi its => match w_freq (wants tr) with Some f => (860000000 <=? f) && (f <=? 876000000) | None => false end &&
  match f_image (front126 hi) with Some _ => true | None => false end).
Proof. show126 (@nil (Z * list Z)). Qed.
Lemma far_image f u : (match f_image u with Some (a, b) => 4000000 * b <? f | None => true end) = true -> ~ image_ok f u.
Proof. intros X (a & b & E & Hr). rewrite E in X. lia. Qed.
(** and no others: at 915 MHz the chip is calibrated for 860 to 876 MHz *)
Theorem C74_sx126x_image_refuted : exists H tr h s hi, henv_ok H /\ used126 H tr h s /\ transcript h = Some hi /\ w_freq (wants tr) = Some 915000000 /\ ~ image_ok 915000000 (front126 hi).
Proof.
  assert (C : case126 [PInit hal_full cfg; PFreq 915000000] (PSetup (par 1 0 false)) (fun c0 tr v hi its => match w_freq (wants tr) with Some f => f =? 915000000 | None => false end &&
    match f_image (front126 hi) with Some (a, b) => 4000000 * b <? 915000000 | None => true end)) by show126 (@nil (Z * list Z)).
  destruct C as (H & c0 & tr & h & s & v & s' & es & hi & its & HH & D & X). destruct D as (HU & _ & _ & Hh & _). apply Bool.andb_true_iff in X as [X Y].
  exists H, tr, h, s, hi. split; [exact HH|]. split; [exact HU|]. split; [exact Hh|]. split; [|apply far_image, Y]. destruct (w_freq (wants tr)); [f_equal; lia|discriminate].
Qed.

Print Assumptions C74_sx126x.
Print Assumptions C74_sx126x_image_partial.
Print Assumptions C74_sx126x_image_refuted.
