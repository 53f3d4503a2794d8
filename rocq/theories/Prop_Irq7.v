(** Prop_Irq7.v -- C71 to C73 for the SX127x driver *)
From Verif Require Import LAir7 DemoRadio SpecIrq.
Local Definition good := [(66, [18]); (59, [0])].
Local Definition usual := [PInit hal_full cfg; PHandler true; PFreq 868100000; PPower 14; PPublic true; PSetup (par 1 0 false)].

(** ** C71: the pins signal what the caller waits for *)
Lemma armed_snoc tr o v es : armed (tr ++ [(o, v, es)]) =
  match o with PTx _ => Some pins_tx | PRx _ _ _ => Some pins_rx | PRand => Some pins_none | PInit _ _ => None | _ => armed tr end.
Proof. unfold armed. rewrite fold_left_app. reflexivity. Qed.
Lemma pins_same r r' : r' 17 = r 17 -> r' 64 = r 64 -> pins127 r' = pins127 r.
Proof. intros A B. unfold pins127. rewrite A, B. reflexivity. Qed.
Definition pin_state (tr : list rentry) (c : c127) : Prop := forall p, armed tr = Some p -> pins127 (c_reg c) = p.
Lemma pins_step H c0 tr c s o v s' es bs : shape H c0 c s o v s' bs -> pin_state tr c -> pin_state (tr ++ [(o, v, es)]) (bchips c bs).
Proof.
  intros Sh IH p. rewrite armed_snoc. destruct o as [hal d| |f|q|b|q|buf|n symb t|cap| | |b]; cbn [shape] in Sh; intro Hp.
  1: discriminate.
  all: try (injection Hp as <-).
  all: try (rewrite <- (IH p Hp); clear IH Hp; apply pins_same; apply chips_other).
  all: repeat match goal with X : exists _, _ |- _ => destruct X | X : _ /\ _ |- _ => destruct X end; subst.
  all: try match goal with X : context [if ?b then _ /\ _ else _] |- _ => destruct b; destruct X as (_ & _ & ->) end.
  all: unfold mode_to in *.
  all: repeat match goal with X : exists _, _ |- _ => destruct X | X : _ /\ _ |- _ => destruct X end; subst.
  all: unfold opt.
  all: try match goal with |- context [if has_io_deinit ?h then _ else _] => destruct (has_io_deinit h) end.
  all: try match goal with |- context [if has_io_init ?h then _ else _] => destruct (has_io_init h) end.
  all: try match goal with |- context [if has_ant ?h then _ else _] => destruct (has_ant h) end.
  all: try match goal with |- context [if a_handler ?h then _ else _] => destruct (a_handler h) end.
  all: try match goal with |- context [if 0 <? Z.min ?h ?k then _ else _] => destruct (0 <? Z.min h k) end.
  all: try reflexivity.
  all: try (cbn; lia).
  all: try (cbn [forallb in_page app]; rewrite ?Bool.andb_true_r; cbn; lia).
  rewrite !bchips_app, polls_chip. reflexivity.
Qed.
Lemma used_pins H c0 tr h s : henv_ok H -> used127 H tr h s -> exists hi, h = unparse hi /\ Forall item_ok hi /\ pin_state tr (chip127 c0 hi).
Proof.
  intros HH. apply (rexec_ind2 H (fun tr h s => exists hi, h = unparse hi /\ Forall item_ok hi /\ pin_state tr (chip127 c0 hi))).
  - intros o v s' es Hi W E. change (@nil hev) with (unparse []) in E. destruct (call_inv H c0 [] d127_0 o v s' es HH (Forall_nil _) W (or_introl Hi) E) as (its & bs & -> & F & L & Sh).
    exists its. split; [reflexivity|]. split; [exact F|]. destruct o; discriminate.
  - intros tr0 h0 s0 o v s' es HU (hi & -> & F & R) W E. destruct (used_pos H _ _ _ HH HU) as (hi' & Eh & F' & Ho).
    destruct (call_inv H c0 hi s0 o v s' es HH F W (or_intror Ho) E) as (its & bs & -> & F2 & L & Sh).
    exists (hi ++ its). split; [symmetry; apply unparse_app|]. split; [apply Forall_app; split; assumption|]. rewrite chip127_app, (like_chip _ _ L). eapply pins_step; eassumption.
Qed.
(** from the first tx, rx or rand after init on, until the next of them or init *)
Theorem C71_sx127x H c0 tr h s hi p : henv_ok H -> used127 H tr h s -> transcript h = Some hi -> armed tr = Some p -> pins127 (c_reg (chip127 c0 hi)) = p.
Proof. intros HH HU Hh Hp. destruct (used_pins H c0 tr h s HH HU) as (hi' & -> & F & HP). rewrite (transcript_unparse _ F) in Hh. injection Hh as ->. apply HP, Hp. Qed.
(** and they do so before the chip starts *)
Theorem C71_sx127x_first H c0 tr h s o v s' es hi its : henv_ok H -> does127 H tr h s o v s' es hi its ->
  let ready p := armed_first p (fun its => pins127 (c_reg (chip127 c0 its))) (fun its => c_acts (chip127 c0 its)) hi its in
  match o with PTx _ => ready pins_tx | PRx _ _ _ => ready pins_rx | PRand => ready pins_none | _ => True end.
Proof.
  intros HH (HU & W & E & Hh & He). destruct (used_step H c0 tr h s o v s' es hi its HH HU W E Hh He) as (bs & L & Sh & _).
  assert (G : forall p x m, bs = x ++ m -> (forall c, c_acts (bchips c x) = c_acts c /\ pins127 (c_reg (bchips c x)) = p) ->
    armed_first p (fun its => pins127 (c_reg (chip127 c0 its))) (fun its => c_acts (chip127 c0 its)) hi its).
  { intros p x m -> Hx. apply Forall2_app_inv_l in L as (a & b & La & Lb & ->). exists a, b. split; [reflexivity|]. rewrite chip127_app, (like_chip _ _ La). apply Hx. }
  cbv zeta. destruct o as [hal' d| |f|q|b|q|buf|n symb t|cap| | |b]; cbn [shape] in Sh; try exact I.
  - destruct Sh as (_ & _ & hal & _ & m & _ & ->). eapply G; [reflexivity|]. intro c. unfold opt.
    assert (X : forall b : bool, c_acts (bchips c ([BW 14 [0]; BW 13 [0]; BW 0 buf; BW 34 [len buf]; BW 17 [247]; BW 64 [64]] ++ (if b then [BD (HAnt false)] else []))) = c_acts (burst127 (bchips c [BW 14 [0]; BW 13 [0]]) 0 buf)) by (intros [|]; reflexivity).
    rewrite X. split; [rewrite burst_acts by lia; reflexivity|]. destruct (has_ant hal); reflexivity.
  - destruct Sh as (_ & _ & hal & _ & x & _ & _ & m & _ & ->). eapply G; [reflexivity|]. intro c. unfold opt. destruct (has_ant hal); split; reflexivity.
  - destruct Sh as (_ & m1 & rs & m2 & _ & _ & _ & _ & _ & ->). eapply G; [reflexivity|]. intro c. split; reflexivity.
Qed.
Definition pins_eqb (p q : pins) : bool :=
  Bool.eqb (on_tx p) (on_tx q) && Bool.eqb (on_rx p) (on_rx q) && Bool.eqb (on_timeout p) (on_timeout q) && Bool.eqb (on_crc p) (on_crc q) && Bool.eqb (on_other p) (on_other q).
(** a reply awaited after an uplink: the pins change over *)
Example C71_sx127x_case : case127 (usual ++ [PTx [1; 2; 3]; PIrq; PSleep; PSetup (par 1 0 true)]) (PRx 255 8 0) (fun c0 tr v hi its =>
  match armed tr with Some p => pins_eqb p pins_tx | None => false end && pins_eqb (pins127 (c_reg (chip127 c0 (hi ++ its)))) pins_rx && negb (pins_eqb (pins127 (c_reg c0)) pins_rx)).
Proof. show127 good. Qed.
Example C71_sx127x_case2 : case127 (usual ++ [PRx 255 8 0; PIrq]) PRand (fun c0 tr v hi its =>
  match armed tr with Some p => pins_eqb p pins_rx | None => false end && pins_eqb (pins127 (c_reg (chip127 c0 (hi ++ its)))) pins_none).
Proof. show127 good. Qed.

(** ** C72: start-up *)
Lemma polls_reads a k rs : breads a (polls k rs) = if k =? a then rs else [].
Proof.
  induction rs as [|r rs IH]; [destruct (k =? a); reflexivity|]. unfold polls in *. cbn [flat_map app]. unfold breads in *. cbn [flat_map app]. rewrite IH. destruct (k =? a); reflexivity.
Qed.
Lemma polls_writes a k rs : bwrites a (polls k rs) = [].
Proof. induction rs as [|r rs IH]; [reflexivity|]. exact IH. Qed.
Lemma land32 r : Z.land r 32 <> 0 <-> bit r 5 = true.
Proof.
  unfold bit. rewrite <- Z.shiftr_div_pow2, <- Z.bit0_odd, Z.shiftr_spec, Z.add_0_l by lia. change 32 with (2 ^ 5). split; intro E.
  - destruct (Z.testbit r 5) eqn:T; [reflexivity|]. destruct E. apply Z.bits_inj'. intros n Hn. rewrite Z.land_spec, Z.bits_0, Z.pow2_bits_eqb by lia. destruct (Z.eqb_spec 5 n) as [<-|]; [rewrite T; reflexivity|apply Bool.andb_false_r].
  - intro X. assert (Y : Z.testbit (Z.land r (2 ^ 5)) 5 = false) by (rewrite X; apply Z.bits_0). rewrite Z.land_spec, E, Z.pow2_bits_true in Y by lia. discriminate.
Qed.
(** a calibration poll succeeds as soon as one of the first 254 answers has bit 5 clear *)
Lemma polls_ok rs ok : 0 < len rs <= 255 -> (ok = true <-> len rs < 255) ->
  (forall i r, nth_error rs i = Some r -> (S i < length rs)%nat -> Z.land r 32 <> 0) -> (ok = true -> Z.land (last rs 0) 32 = 0) ->
  ok = existsb (fun x => negb (bit x 5)) (firstn 254 rs).
Proof.
  intros Hl Hk Hn Hla. unfold len in *. destruct ok.
  - symmetry. apply existsb_exists. exists (last rs 0). pose proof (proj1 Hk eq_refl) as Hs. rewrite firstn_all2 by lia. split.
    + destruct (exists_last (l := rs)) as (l & a & ->); [intros ->; cbn in Hl; lia|]. rewrite last_last. apply in_or_app. right. left. reflexivity.
    + specialize (Hla eq_refl). destruct (bit (last rs 0) 5) eqn:B; [|reflexivity]. apply land32 in B. contradiction.
  - symmetry. apply Bool.not_true_is_false. intro X. apply existsb_exists in X as (x & Hx & Hb). apply In_nth_error in Hx as (i & Hi).
    assert (Hs : length rs = 255%nat) by (destruct (Z_lt_le_dec (Z.of_nat (length rs)) 255) as [l|l]; [apply Hk in l; discriminate|lia]).
    assert (I : (i < 254)%nat) by (assert (A : nth_error (firstn 254 rs) i <> None) by congruence; apply nth_error_Some in A; rewrite firstn_length in A; lia).
    assert (N : nth_error rs i = Some x).
    { rewrite <- (firstn_skipn 254 rs). rewrite nth_error_app1; [exact Hi|]. rewrite firstn_length. lia. }
    specialize (Hn i x N ltac:(lia)). apply land32 in Hn. rewrite Hn in Hb. discriminate.
Qed.
Lemma init_call H c0 h s hal d v s' es hi its : henv_ok H -> inits127 H h s -> rop_wf (PInit hal d) -> call127 H (PInit hal d) h s = Ok (v, s', es) -> transcript h = Some hi -> transcript es = Some its ->
  exists bs, Forall2 like bs its /\ shape (relax H) c0 (chip127 c0 hi) s (PInit hal d) v s' bs.
Proof.
  intros HH Hi W E Hh He. assert (X : exists hi', h = unparse hi' /\ Forall item_ok hi').
  { destruct Hi as [[-> _]|[tr HU]]; [exists []; split; [reflexivity|constructor]|]. destruct (used_pos H _ _ _ HH HU) as (hi' & Eh & F & _). eauto. }
  destruct X as (hi' & -> & F). rewrite (transcript_unparse _ F) in Hh. injection Hh as ->.
  destruct (call_inv H c0 hi s _ v s' es HH F W (or_introl eq_refl) E) as (its' & bs & -> & F' & L & Sh). rewrite (transcript_unparse _ F') in He. injection He as ->. eauto.
Qed.
Lemma head_chip c hal : bchips c (init_head hal) = Mk_c127 reset127 (c_fifo c) (c_acts c).
Proof. unfold init_head, opt. destruct (has_io_deinit hal); reflexivity. Qed.
Lemma head_reads a hal : breads a (init_head hal) = [].
Proof. unfold init_head, opt. destruct (has_io_deinit hal); reflexivity. Qed.
(** init succeeds if the chip names itself an SX1276 (version 0x12) and the calibration
    started ends within 254 polls, 1 ms apart; then the chip sleeps in LoRa mode
    (bit 7 of RegOpMode), with the public sync word and the reset value of everything
    but the carrier, the ramp-up time, and the LNA setting. *)
Theorem C72_sx127x H c0 h s hal d v s' es hi its : henv_ok H -> inits127 H h s -> rop_wf (PInit hal d) ->
  call127 H (PInit hal d) h s = Ok (v, s', es) -> transcript h = Some hi -> transcript es = Some its ->
  exists ver, reads127 66 its = [ver] /\
    v = RvBool ((ver =? 18) && existsb (fun x => negb (bit x 5)) (firstn 254 (tl (reads127 59 its)))) /\
    (length (tl (reads127 59 its)) <= 255)%nat /\
    c_acts (chip127 c0 (hi ++ its)) = c_acts (chip127 c0 hi) /\
    (v = RvBool true -> let r := c_reg (chip127 c0 (hi ++ its)) in
       r 1 = 128 /\ r 57 = sync_word true /\ r 10 = 8 /\ r 12 = 35 /\ forall a, ~ In a [1; 6; 7; 8; 10; 12; 57; 59] -> r a = reset127 a).
Proof.
  intros HH Hi W E Hh He. destruct (init_call H c0 _ _ _ _ _ _ _ _ _ HH Hi W E Hh He) as (bs & L & Sh). rewrite chip127_app, (like_chip _ _ L).
  destruct (like_reads 66 _ _ L ltac:(lia)) as [R66 _]. destruct (like_reads 59 _ _ L ltac:(lia)) as [R59 _]. rewrite R66, R59. set (c := chip127 c0 hi) in *. clearbody c.
  destruct Sh as (_ & ver & _ & [(Nv & -> & ->)|(-> & x & w & rs & ok & _ & [_ Ew] & -> & _ & Hl & Hk & Hn & Hla & ->)]).
  - exists ver. unfold breads. rewrite !flat_map_app. fold (breads 66 (init_head hal)) (breads 59 (init_head hal)). rewrite !head_reads. cbn [flat_map app Z.eqb Pos.eqb tl existsb firstn].
    split; [reflexivity|]. split; [rewrite Bool.andb_false_r; reflexivity|]. split; [cbn; lia|]. rewrite bchips_app, head_chip. split; [reflexivity|discriminate].
  - exists 18. assert (R : forall a, breads a (init_head hal ++ [BR 66 [18]; BW 6 (frf_bytes 868800000); BR 59 [x]; BW 59 [w]] ++ polls 59 rs ++ (if ok then init_tail else [])) =
      (if 66 =? a then [18] else []) ++ (if 59 =? a then x :: rs else [])).
    { intro a. unfold breads. rewrite !flat_map_app. fold (breads a (init_head hal)) (breads a (polls 59 rs)). rewrite head_reads, polls_reads. cbn [flat_map app]. destruct ok; cbn [flat_map app init_tail]; rewrite ?app_nil_r; destruct (66 =? a), (59 =? a); reflexivity. }
    rewrite !bchips_app, head_chip, polls_chip. rewrite !R. cbn [Z.eqb Pos.eqb app tl andb]. rewrite <- (polls_ok rs ok Hl Hk Hn Hla). split; [reflexivity|]. split; [reflexivity|]. split; [unfold len in Hl; lia|].
    split.
    + destruct ok; cbn; rewrite ?app_nil_r; reflexivity.
    + intro X. injection X as ->. cbv zeta. split; [reflexivity|]. split; [reflexivity|]. split; [reflexivity|]. split; [reflexivity|]. intros a Ha.
      rewrite !chips_other; try reflexivity; cbn in *; lia.
Qed.
(** the calibration is started once, at 868.8 MHz in FSK standby, by bit 6 of RegImageCal;
    the other bits stay as read *)
Theorem C72_sx127x_calibration H c0 h s hal d v s' es hi its : henv_ok H -> inits127 H h s -> rop_wf (PInit hal d) ->
  call127 H (PInit hal d) h s = Ok (v, s', es) -> transcript h = Some hi -> transcript es = Some its -> reads127 66 its = [18] ->
  exists a x t b, its = a ++ Tr t :: b /\ reads127 59 a = [x] /\ mosi t = [128 + 59; Z.lor x 64] /\ calibrates (chip127 c0 (hi ++ a)) /\ writes127 59 b = [] /\
    c_reg (chip127 c0 (hi ++ a)) 59 = reset127 59.
Proof.
  intros HH Hi W E Hh He Hv. destruct (init_call H c0 _ _ _ _ _ _ _ _ _ HH Hi W E Hh He) as (bs & L & Sh).
  destruct (like_reads 66 _ _ L ltac:(lia)) as [R66 _]. rewrite R66 in Hv. clear R66.
  destruct Sh as (_ & ver & _ & [(Nv & -> & ->)|(-> & x & w & rs & ok & _ & [_ Ew] & -> & _ & Hl & Hk & Hn & Hla & ->)]).
  - unfold breads in Hv. rewrite !flat_map_app in Hv. fold (breads 66 (init_head hal)) in Hv. rewrite !head_reads in Hv. cbn in Hv. congruence.
  - clear Hv. change (init_head hal ++ [BR 66 [18]; BW 6 (frf_bytes 868800000); BR 59 [x]; BW 59 [w]] ++ polls 59 rs ++ (if ok then init_tail else [])) with
      (init_head hal ++ [BR 66 [18]; BW 6 (frf_bytes 868800000); BR 59 [x]] ++ [BW 59 [w]] ++ polls 59 rs ++ (if ok then init_tail else [])) in L.
    rewrite app_assoc in L. set (p := init_head hal ++ _) in L. apply Forall2_app_inv_l in L as (a & l & La & Ll & ->). apply Forall2_app_inv_l in Ll as (t & b & Lt & Lb & ->).
    inversion Lt as [|? i ? l Li Lr]; subst. inversion Lr; subst. destruct i as [t|e]; cbn in Li; [|contradiction]. exists a, x, t, b.
    split; [reflexivity|]. destruct (like_reads 59 _ _ La ltac:(lia)) as [-> _]. destruct (like_reads 59 _ _ Lb ltac:(lia)) as [_ ->].
    rewrite chip127_app, (like_chip _ _ La). set (c := chip127 c0 hi). unfold p. rewrite bchips_app, head_chip.
    split; [unfold breads; rewrite flat_map_app; fold (breads 59 (init_head hal)); rewrite head_reads; reflexivity|].
    split; [intuition|]. split.
    + split; [reflexivity|]. split; [reflexivity|]. apply carrier_127; [lia|reflexivity|reflexivity|reflexivity].
    + split; [|reflexivity]. unfold bwrites. rewrite flat_map_app. fold (bwrites 59 (polls 59 rs)). rewrite polls_writes. destruct ok; reflexivity.
Qed.
(** the first call of a program: the calibration takes two polls; it never ends; the
    chip is another one *)
Lemma first_init t hal d P : rop_wfb (PInit hal d) = true -> case (call127 (sim127 t on127)) d127_0 [] (PInit hal d) P = true ->
  exists H v s' es its, henv_ok H /\ inits127 H [] d127_0 /\ rop_wf (PInit hal d) /\ call127 H (PInit hal d) [] d127_0 = Ok (v, s', es) /\ transcript es = Some its /\ P [] v [] its = true.
Proof.
  unfold case. cbn [go]. intros W E. destruct (call127 (sim127 t on127) (PInit hal d) [] d127_0) as [[[v s'] es]|] eqn:Ec; [|discriminate].
  destruct (transcript es) as [its|] eqn:Et; [|discriminate]. exists (sim127 t on127), v, s', es, its. split; [apply sim127_ok|]. split; [left; auto|]. split; [apply rop_wfb_ok, W|]. auto.
Qed.
Example C72_sx127x_case : exists H v s' es its, henv_ok H /\ inits127 H [] d127_0 /\ rop_wf (PInit hal_full cfg) /\ call127 H (PInit hal_full cfg) [] d127_0 = Ok (v, s', es) /\ transcript es = Some its /\
  (match v with RvBool b => b | _ => false end && (length (reads127 59 its) =? 2)%nat && negb (c_reg (chip127 on127 its) 10 =? c_reg on127 10)) = true.
Proof. apply (first_init good hal_full cfg (fun _ v _ its => match v with RvBool b => b | _ => false end && (length (reads127 59 its) =? 2)%nat && negb (c_reg (chip127 on127 its) 10 =? c_reg on127 10))); vm_compute; reflexivity. Qed.
Example C72_sx127x_case2 : exists H v s' es its, henv_ok H /\ inits127 H [] d127_0 /\ rop_wf (PInit hal_full cfg) /\ call127 H (PInit hal_full cfg) [] d127_0 = Ok (v, s', es) /\ transcript es = Some its /\
  (match v with RvBool b => negb b | _ => false end && (length (reads127 59 its) =? 256)%nat && zlist_eqb (reads127 66 its) [18]) = true.
Proof. apply (first_init [(66, [18]); (59, [32])] hal_full cfg (fun _ v _ its => match v with RvBool b => negb b | _ => false end && (length (reads127 59 its) =? 256)%nat && zlist_eqb (reads127 66 its) [18])); vm_compute; reflexivity. Qed.
Example C72_sx127x_case3 : exists H v s' es its, henv_ok H /\ inits127 H [] d127_0 /\ rop_wf (PInit hal_full cfg) /\ call127 H (PInit hal_full cfg) [] d127_0 = Ok (v, s', es) /\ transcript es = Some its /\
  (match v with RvBool b => negb b | _ => false end && zlist_eqb (reads127 59 its) [] && zlist_eqb (reads127 66 its) [36]) = true.
Proof. apply (first_init [(66, [36]); (59, [32])] hal_full cfg (fun _ v _ its => match v with RvBool b => negb b | _ => false end && zlist_eqb (reads127 59 its) [] && zlist_eqb (reads127 66 its) [36])); vm_compute; reflexivity. Qed.
(** init again while in use *)
Example C72_sx127x_case4 : case127 (usual ++ [PTx [1; 2; 3]]) (PInit hal_full cfg) (fun c0 tr v hi its =>
  match v with RvBool b => b | _ => false end && negb (c_reg (chip127 c0 hi) 64 =? reset127 64) && (c_reg (chip127 c0 (hi ++ its)) 64 =? reset127 64)).
Proof. show127 good. Qed.

(** ** C73: sleep and random numbers *)
(** sleep: the mode bits of RegOpMode become 0, LoRa mode is kept, and so is every other
    register, the FIFO, and what is on the air *)
Theorem C73_sx127x_sleep H c0 tr h s v s' es hi its : henv_ok H -> answers127 c0 H -> does127 H tr h s PSleep v s' es hi its ->
  let c := chip127 c0 hi in let c' := chip127 c0 (hi ++ its) in
  c_reg c' 1 mod 8 = 0 /\ bit (c_reg c' 1) 7 = bit (c_reg c 1) 7 /\ (forall a, a <> 1 -> c_reg c' a = c_reg c a) /\ c_fifo c' = c_fifo c /\ c_acts c' = c_acts c.
Proof.
  intros HH HA (HU & W & E & Hh & He). destruct (used_step H c0 tr h s _ v s' es hi its HH HU W E Hh He) as (bs & L & Sh & _ & ->). cbv zeta.
  destruct Sh as (_ & _ & hal & _ & m & Hm & ->). pose proof (mode_chip _ _ _ _ _ Hm ltac:(lia)) as (A & B & C & D & F). cbv zeta in *.
  rewrite bchips_app. assert (X : forall c, bchips c (opt (has_io_deinit hal) HIoDeinit) = c) by (intro c; unfold opt; destruct (has_io_deinit hal); reflexivity). rewrite X.
  split; [exact A|]. split; [apply D; right; exact HA|]. split; [exact B|]. split; [exact C|]. rewrite F. cbn. apply app_nil_r.
Qed.
Example C73_sx127x_sleep_case : case127 (usual ++ [PRx 255 8 0]) PSleep (fun c0 tr v hi its =>
  (c_reg (chip127 c0 hi) 1 mod 8 =? 6) && bit (c_reg (chip127 c0 (hi ++ its)) 1) 7 && (c_reg (chip127 c0 (hi ++ its)) 29 =? 114)).
Proof. show127 good. Qed.

Lemma bits_from rs : forall i, 0 <= i -> bits i rs = 2 ^ i * from_bits (map Z.odd rs).
Proof.
  induction rs as [|r rs IH]; intros i Hi; [cbn; lia|]. cbn [bits map from_bits]. rewrite IH by lia. rewrite Z.pow_add_r, Zmod_odd by lia. change (2 ^ 1) with 2. destruct (Z.odd r); cbn [b2z]; lia.
Qed.
(** rand: the low bits of 32 readings of the wide-band signal strength, first reading
    lowest, taken while receiving; the chip sleeps afterwards, with its interrupts masked *)
Theorem C73_sx127x_rand H c0 tr h s v s' es hi its : henv_ok H -> answers127 c0 H -> does127 H tr h s PRand v s' es hi its ->
  let c := chip127 c0 hi in let c' := chip127 c0 (hi ++ its) in
  length (reads127 44 its) = 32%nat /\ v = RvNum (from_bits (map Z.odd (reads127 44 its))) /\
  (exists m k n, c_acts c' = c_acts c ++ [Listen m Continuous k n] /\ m_lora m = bit (c_reg c 1) 7) /\
  (exists a b e, its = a ++ b ++ e /\ reads127 44 (a ++ e) = [] /\ c_reg (chip127 c0 (hi ++ a)) 1 mod 8 = 5 /\ writes127 1 b = []) /\
  c_reg c' 1 mod 8 = 0 /\ bit (c_reg c' 1) 7 = bit (c_reg c 1) 7 /\ pins127 (c_reg c') = pins_none /\ (forall a, a <> 1 -> a <> 17 -> c_reg c' a = c_reg c a) /\ c_fifo c' = c_fifo c.
Proof.
  intros HH HA (HU & W & E & Hh & He). destruct (used_step H c0 tr h s _ v s' es hi its HH HU W E Hh He) as (bs & L & Sh & _ & ->). cbv zeta.
  destruct (like_reads 44 _ _ L ltac:(lia)) as [-> _].
  destruct Sh as (_ & m1 & rs & m2 & Hm1 & Hm2 & Hl & _ & -> & ->). rewrite bchips_app in Hm2.
  pose proof (mode_chip _ _ _ _ _ Hm1 ltac:(lia)) as (A1 & B1 & C1 & D1 & F1). pose proof (mode_chip _ _ _ _ _ Hm2 ltac:(lia)) as (A2 & B2 & C2 & D2 & F2). cbv zeta in *.
  assert (R : breads 44 ([BW 17 [255]] ++ m1 ++ polls 44 rs ++ m2) = rs).
  { destruct Hm1 as (v1 & w1 & _ & _ & _ & _ & ->), Hm2 as (v2 & w2 & _ & _ & _ & _ & ->). unfold breads. rewrite !flat_map_app. fold (breads 44 (polls 44 rs)). rewrite polls_reads. cbn. apply app_nil_r. }
  rewrite R. rewrite !bchips_app, polls_chip. set (c := chip127 c0 hi) in *. set (cm := bchips c [BW 17 [255]]) in *. set (c1 := bchips cm m1) in *.
  split; [exact Hl|]. split; [rewrite bits_from by lia; f_equal; lia|].
  assert (M : bit (c_reg c1 1) 7 = bit (c_reg c 1) 7) by (apply D1; right; exact HA).
  assert (X : exists a b e, its = a ++ b ++ e /\ reads127 44 (a ++ e) = [] /\ c_reg (chip127 c0 (hi ++ a)) 1 mod 8 = 5 /\ writes127 1 b = []).
  { change ([BW 17 [255]] ++ m1 ++ polls 44 rs ++ m2) with (([BW 17 [255]] ++ m1) ++ polls 44 rs ++ m2) in L. apply Forall2_app_inv_l in L as (a & l & La & Ll & ->). apply Forall2_app_inv_l in Ll as (b & e & Lb & Le & ->).
    exists a, b, e. split; [reflexivity|]. destruct (like_reads 44 _ _ (Forall2_app La Le) ltac:(lia)) as [-> _]. destruct (like_reads 1 _ _ Lb ltac:(lia)) as [_ ->]. rewrite chip127_app, (like_chip _ _ La).
    split; [destruct Hm1 as (v1 & w1 & _ & _ & _ & _ & ->), Hm2 as (v2 & w2 & _ & _ & _ & _ & ->); reflexivity|]. split; [rewrite bchips_app; exact A1|apply polls_writes]. }
  split; [|split; [exact X|split; [exact A2|split; [rewrite D2 by (right; exact HA); exact M|split; [|split; [|rewrite C2, C1; reflexivity]]]]]].
  - rewrite F2, F1. cbn [started Z.eqb Pos.eqb]. rewrite app_nil_r. do 3 eexists. split; [reflexivity|exact M].
  - unfold pins127. rewrite (B2 17), (B1 17) by lia. reflexivity.
  - intros a N1 N17. rewrite B2, B1 by lia. unfold cm. apply chips_other; [reflexivity|reflexivity|cbn; lia].
Qed.
Example C73_sx127x_rand_case : exists H c0 tr h s v s' es hi its, henv_ok H /\ answers127 c0 H /\ does127 H tr h s PRand v s' es hi its /\
  ((match v with RvNum n => n =? 4294967295 | _ => false end) && bit (c_reg (chip127 c0 hi) 1) 7) = true.
Proof. change (case127 usual PRand (fun c0 tr v hi its => (match v with RvNum n => n =? 4294967295 | _ => false end) && bit (c_reg (chip127 c0 hi) 1) 7)). show127 [(66, [18]); (59, [0]); (44, [1])]. Qed.

Print Assumptions C71_sx127x.
Print Assumptions C71_sx127x_first.
Print Assumptions C72_sx127x.
Print Assumptions C72_sx127x_calibration.
Print Assumptions C73_sx127x_sleep.
Print Assumptions C73_sx127x_rand.
