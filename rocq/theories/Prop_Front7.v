(** Prop_Front7.v -- C74 for the SX127x driver *)
From Verif Require Import LAir7 DemoRadio SpecFront Prop_Irq7.
Local Definition good := [(66, [18]); (59, [0])].
Local Definition usual := [PInit hal_full cfg; PHandler true; PFreq 868100000; PPower 14; PPublic true; PSetup (par 1 0 false)].

Definition agc_state (tr : list rentry) (c : c127) : Prop := w_par (wants tr) <> None -> agc127 (c_reg c) = true.
Lemma agc_step H c0 tr c s o v s' es bs : shape H c0 c s o v s' bs -> agc_state tr c -> agc_state (tr ++ [(o, v, es)]) (bchips c bs).
Proof.
  intros Sh IH. unfold agc_state. rewrite wants_snoc. destruct o as [hal d| |f|q|b|q|buf|n symb t|cap| | |b]; cbn [shape] in Sh; intro Hp.
  1: { exfalso. destruct Sh as (_ & ver & _ & [(_ & -> & _)|(_ & x & w & rs & ok & _ & _ & -> & _)]); cbn in Hp; congruence. }
  5: { destruct Sh as (_ & _ & hal & _ & m & (x & y & _ & _ & _ & _ & ->) & ->). unfold agc127, opt.
       assert (X : forall b : bool, c_reg (bchips c ([BR 1 [x]; BW 1 [y]] ++ [BW 29 [conf1 q]; BW 30 [conf2 q]; BW 38 [conf3 q]; BW 51 [if p_inverted_iq q then 102 else 39]; BW 59 [if p_inverted_iq q then 25 else 29]] ++ (if b then [BD HIoInit] else []))) 38 = conf3 q)
         by (intros [|]; reflexivity). rewrite X. unfold conf3. destruct (SF_11 <=? p_sf q); reflexivity. }
  8: { rewrite <- (IH Hp). destruct Sh as (_ & m1 & rs & m2 & (v1 & w1 & _ & _ & _ & _ & ->) & (v2 & w2 & _ & _ & _ & _ & ->) & _ & _ & _ & ->). rewrite !bchips_app, polls_chip. reflexivity. }
  all: assert (Hp' : w_par (wants tr) <> None) by (destruct v as [|[|]| |]; exact Hp).
  all: rewrite <- (IH Hp'); clear IH Hp Hp'; unfold agc127; apply (f_equal (fun z => bit z 2)); apply chips_other.
  all: repeat match goal with X : exists _, _ |- _ => destruct X | X : _ /\ _ |- _ => destruct X end; subst.
  all: try match goal with X : context [if ?b then _ /\ _ else _] |- _ => destruct b; destruct X as (_ & _ & ->) end.
  all: unfold mode_to in *.
  all: repeat match goal with X : exists _, _ |- _ => destruct X | X : _ /\ _ |- _ => destruct X end; subst.
  all: unfold opt.
  all: try match goal with |- context [if has_io_deinit ?h then _ else _] => destruct (has_io_deinit h) end.
  all: try match goal with |- context [if has_io_init ?h then _ else _] => destruct (has_io_init h) end.
  all: try match goal with |- context [if has_ant ?h then _ else _] => destruct (has_ant h) end.
  all: try match goal with |- context [if a_handler ?h then _ else _] => destruct (a_handler h) end.
  all: try match goal with |- context [if 0 <? Z.min ?h ?k then _ else _] => destruct (0 <? Z.min h k) end.
  all: try reflexivity.
  all: try (cbn; lia).
  all: try (cbn [forallb in_page app]; rewrite ?Bool.andb_true_r; cbn; lia).
Qed.
Lemma used_agc H c0 tr h s : henv_ok H -> used127 H tr h s -> exists hi, h = unparse hi /\ Forall item_ok hi /\ agc_state tr (chip127 c0 hi).
Proof.
  intros HH. apply (rexec_ind2 H (fun tr h s => exists hi, h = unparse hi /\ Forall item_ok hi /\ agc_state tr (chip127 c0 hi))).
  - intros o v s' es Hi W E. change (@nil hev) with (unparse []) in E. destruct (call_inv H c0 [] d127_0 o v s' es HH (Forall_nil _) W (or_introl Hi) E) as (its & bs & -> & F & L & Sh).
    exists its. split; [reflexivity|]. split; [exact F|]. rewrite (like_chip _ _ L). apply (agc_step _ _ [] _ _ _ _ _ (unparse its) _ Sh). intro X. destruct (X eq_refl).
  - intros tr0 h0 s0 o v s' es HU (hi & -> & F & R) W E. destruct (used_pos H _ _ _ HH HU) as (hi' & Eh & F' & Ho).
    destruct (call_inv H c0 hi s0 o v s' es HH F W (or_intror Ho) E) as (its & bs & -> & F2 & L & Sh).
    exists (hi ++ its). split; [symmetry; apply unparse_app|]. split; [apply Forall_app; split; assumption|]. rewrite chip127_app, (like_chip _ _ L). eapply agc_step; eassumption.
Qed.
(** ** C74: the receiver gain is automatic from the first setup on *)
Theorem C74_sx127x_agc H c0 tr h s hi : henv_ok H -> used127 H tr h s -> transcript h = Some hi -> w_par (wants tr) <> None -> agc127 (c_reg (chip127 c0 hi)) = true.
Proof. intros HH HU Hh Hp. destruct (used_agc H c0 tr h s HH HU) as (hi' & -> & F & HP). rewrite (transcript_unparse _ F) in Hh. injection Hh as ->. apply HP, Hp. Qed.
Example C74_sx127x_agc_case : case127 (usual ++ [PTx [1; 2; 3]; PIrq; PSleep; PSetup (par 6 0 true)]) (PRx 255 8 0) (fun c0 tr v hi its =>
  match w_par (wants tr) with Some p => p_sf p =? 6 | None => false end && agc127 (c_reg (chip127 c0 (hi ++ its)))).
Proof. show127 good. Qed.

(** rx sets the receiver up for the best sensitivity of a bandwidth of 500 kHz in the
    862 to 1020 MHz band, whatever bandwidth and carrier are in use *)
Theorem C74_sx127x_sensitivity_partial H c0 tr h s n symb t v s' es hi its p f : henv_ok H -> does127 H tr h s (PRx n symb t) v s' es hi its ->
  w_par (wants tr) = Some p -> w_freq (wants tr) = Some f -> p_bw p = 2 -> 862000000 <= f <= 1020000000 -> sensitive127 (125 * 2 ^ p_bw p) f (c_reg (chip127 c0 (hi ++ its))).
Proof.
  intros HH (HU & W & E & Hh & He) _ _ Hb Hf. destruct (used_step H c0 tr h s _ v s' es hi its HH HU W E Hh He) as (bs & L & Sh & _ & ->).
  rewrite Hb. unfold sensitive127. change (125 * 2 ^ 2 =? 500) with true. replace (862000000 <=? f) with true by lia. replace (f <=? 1020000000) with true by lia. cbn [andb].
  destruct Sh as (_ & _ & hal & _ & x & _ & _ & m & (v1 & w1 & _ & _ & _ & _ & ->) & ->). unfold opt. destruct (has_ant hal); split; reflexivity.
Qed.
Example C74_sx127x_sensitivity_case : case127 (usual ++ [PSetup (par 1 2 false)]) (PRx 255 8 0) (fun c0 tr v hi its =>
  match w_par (wants tr), w_freq (wants tr) with Some p, Some f => (p_bw p =? 2) && (862000000 <=? f) && (f <=? 1020000000) | _, _ => false end && (c_reg (chip127 c0 (hi ++ its)) 54 =? 2)).
Proof. show127 good. Qed.
Lemma swapb (x : Z) : (x =? 2) = true -> x <> 3. Proof. lia. Qed.
(** the rule broken: a LoRaWAN window at 868.1 MHz, 125 kHz *)
Theorem C74_sx127x_sensitivity_refuted : exists H c0 tr h s v s' es hi its p f, henv_ok H /\ answers127 c0 H /\ does127 H tr h s (PRx 255 8 0) v s' es hi its /\
  w_par (wants tr) = Some p /\ w_freq (wants tr) = Some f /\ ~ sensitive127 (125 * 2 ^ p_bw p) f (c_reg (chip127 c0 (hi ++ its))).
Proof.
  assert (C : case127 usual (PRx 255 8 0) (fun c0 tr v hi its => match w_par (wants tr), w_freq (wants tr) with Some p, Some f => (p_bw p =? 0) && (f =? 868100000) | _, _ => false end && (c_reg (chip127 c0 (hi ++ its)) 54 =? 2))) by show127 good.
  destruct C as (H & c0 & tr & h & s & v & s' & es & hi & its & HH & HA & D & X). apply Bool.andb_true_iff in X as [X Y]. destruct (w_par (wants tr)) as [p|] eqn:Ep; [|discriminate]. destruct (w_freq (wants tr)) as [f|] eqn:Ef; [|discriminate].
  exists H, c0, tr, h, s, v, s', es, hi, its, p, f. split; [exact HH|]. split; [exact HA|]. split; [exact D|]. split; [exact Ep|]. split; [exact Ef|].
  assert (B : p_bw p = 0) by lia. rewrite B. unfold sensitive127. change (125 * 2 ^ 0 =? 500) with false. cbn [andb]. apply swapb, Y.
Qed.

Definition bpaced1 (a d : Z) (b : bop) : Z * bool := match b with BD (HDelay us) => (us, true) | BD _ => (0, true) | BR k _ => (0, if k =? a then 1000 <=? d else true) | BW _ _ => (0, true) end.
Fixpoint bpaced (a d : Z) (bs : list bop) : bool := match bs with [] => true | b :: bs' => let (d', ok) := bpaced1 a d b in ok && bpaced a d' bs' end.
Lemma like_paced a bs its : 0 <= a < 128 -> Forall2 like bs its -> forall d, paced a d its = bpaced a d bs.
Proof.
  intros Ha. induction 1 as [|b i bs its Hl _ IH]; intro d; [reflexivity|]. destruct b as [k vs|k vs|e], i as [x|e']; cbn [like] in Hl; try tauto.
  - destruct Hl as [Hx Hk]. destruct x as [|[k' z] y]; [discriminate|]. assert (Xa : k' = 128 + k) by exact (f_equal (hd 0) Hx). cbn [paced bpaced bpaced1]. replace (k' =? a) with false by lia. rewrite IH. reflexivity.
  - destruct x as [|[k' z] y]; [tauto|]. destruct Hl as (-> & _ & _). cbn [paced bpaced bpaced1]. rewrite IH. reflexivity.
  - destruct Hl as [-> _]. cbn [paced bpaced bpaced1]. destruct e; cbn [andb]; apply IH.
Qed.
Lemma polls_paced a rs b : forall d, (forall d', bpaced a d' b = true) -> bpaced a d (polls a rs ++ b) = true.
Proof.
  induction rs as [|r rs IH]; intros d Hb; [apply Hb|]. unfold polls in *. cbn [flat_map app bpaced bpaced1]. rewrite Z.eqb_refl. cbn [andb]. change (1000 <=? 1000) with true. cbn [andb]. apply IH, Hb.
Qed.
(** the noise readings of rand are a millisecond apart *)
Theorem C74_sx127x_rand_paced H c0 tr h s v s' es hi its : henv_ok H -> answers127 c0 H -> does127 H tr h s PRand v s' es hi its -> paced 44 0 its = true.
Proof.
  intros HH _ (HU & W & E & Hh & He). destruct (used_step H c0 tr h s _ v s' es hi its HH HU W E Hh He) as (bs & L & Sh & _). rewrite (like_paced 44 _ _ ltac:(lia) L).
  destruct Sh as (_ & m1 & rs & m2 & (v1 & w1 & _ & _ & _ & _ & ->) & (v2 & w2 & _ & _ & _ & _ & ->) & _ & _ & _ & ->). cbn [app bpaced bpaced1 Z.eqb Pos.eqb andb]. apply polls_paced. reflexivity.
Qed.
Example C74_sx127x_rand_case : case127 usual PRand (fun c0 tr v hi its => paced 44 0 its && (length (reads127 44 its) =? 32)%nat).
Proof. show127 good. Qed.

Print Assumptions C74_sx127x_agc.
Print Assumptions C74_sx127x_sensitivity_partial.
Print Assumptions C74_sx127x_sensitivity_refuted.
Print Assumptions C74_sx127x_rand_paced.
