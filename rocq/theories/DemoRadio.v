(** DemoRadio.v -- chips that answer, and driver runs against them, for the examples *)
From Verif Require Import PDrv.
From Verif Require Export SpecDrv.

(** the transactions so far and the window that is open *)
Definition hstep (st : list item * option (list (Z * Z))) (e : hev) : list item * option (list (Z * Z)) :=
  match st, e with
  | (d, None), HSelect true => (d, Some [])
  | (d, Some x), HXfer o i => (d, Some (x ++ [(o, i)]))
  | (d, Some x), HSelect false => (d ++ [Tr x], None)
  | (d, None), _ => (d ++ [Do e], None)
  | (d, Some x), _ => (d, Some x)
  end.
Definition hist (h : list hev) := fold_left hstep h ([], None).
Lemma hist_parse es : forall d cur its, parse cur es = Some its -> fold_left hstep es (d, cur) = (d ++ its, None).
Proof.
  induction es as [|e es IH]; intros d cur its E.
  - destruct cur; [discriminate|]. injection E as <-. rewrite app_nil_r. reflexivity.
  - cbn [fold_left]. cbn [parse] in E. destruct e as [b|[|]|o i|u| | | |b|u], cur as [x|]; try discriminate; cbn [hstep];
      try (destruct (parse None es) as [j|] eqn:P; [|discriminate]; injection E as <-; rewrite (IH _ _ _ P), <- app_assoc; reflexivity).
    + apply IH, E.
    + destruct x as [|y x]; [discriminate|]. destruct (parse None es) as [j|] eqn:P; [|discriminate]. injection E as <-. rewrite (IH _ _ _ P), <- app_assoc. reflexivity.
    + apply IH, E.
Qed.
(** what a table says about a byte read *)
Fixpoint look (t : list (Z * list Z)) (a : Z) (k : nat) : option Z :=
  match t with [] => None | (a', vs) :: t' => if a' =? a then nth_error vs k else look t' a k end.
(** an SX1276 that starts as [c0] and answers with its registers, but as [t] says for
    the registers in there *)
Definition sim127 (t : list (Z * list Z)) (c0 : c127) : henv := Mk_henv (fun h o =>
  (match hist h with
   | (d, Some ((a, _) :: x)) => match look t a (length x) with Some v => v | None => c_reg (chip127 c0 d) (a + Z.of_nat (length x)) end
   | _ => 0
   end) mod 256) false.
Lemma sim127_ok t c0 : henv_ok (sim127 t c0). Proof. intros h o. apply Z.mod_pos_bound. lia. Qed.
Lemma sim127_answers t c0 : look t 1 0 = None -> look t 30 0 = None -> answers127 c0 (sim127 t c0).
Proof.
  intros H1 H30 h its b o E. cbn [sim127 h_xfer]. unfold hist. rewrite !fold_left_app. rewrite (hist_parse h [] None its E). cbn [fold_left hstep app length].
  rewrite H1, H30. change (1 + Z.of_nat 0) with 1. change (30 + Z.of_nat 0) with 30. split; [|reflexivity].
  set (v := c_reg _ _). pose proof (Z.div_mod v 8 ltac:(lia)) as D. pose proof (Z.mod_pos_bound v 8 ltac:(lia)) as B. change 256 with (8 * 32). rewrite Z.rem_mul_r by lia.
  pose proof (Z.mod_pos_bound (v / 8) 32 ltac:(lia)). symmetry. apply Z.div_unique with (v mod 8); lia.
Qed.
Definition on127 : c127 := Mk_c127 (fun _ => 165) (fun _ => 90) [].

(** ** Runs *)
Definition cfg : Sx126x.sx126x_opts := Sx126x.Mk_opts true true true 320 2.
Definition hal_full : hal_opts := Mk_hal_opts true true true.
Definition par (sf bw : Z) (iq : bool) : params := Mk_params sf bw 0 8 true iq false.
Fixpoint go {S} (call : rop -> M S hev rval) (h : list hev) (s : S) (os : list rop) : option (list rentry * list hev * S) :=
  match os with
  | [] => Some ([], h, s)
  | o :: os' => match call o h s with
      | Ok (v, s', es) => match go call (h ++ es) s' os' with Some (tr, h', s'') => Some ((o, v, es) :: tr, h', s'') | None => None end
      | Undef _ => None
      end
  end.
Lemma rexec_cons {S} (call : rop -> M S hev rval) o v es h s s1 tr h' s' : call o h s = Ok (v, s1, es) -> rexec call (h ++ es) s1 tr h' s' -> rexec call h s ((o, v, es) :: tr) h' s'.
Proof.
  intros E HX. remember (h ++ es) as h1 eqn:Eh. revert Eh. induction HX as [h1 s1'|h1 s1' tr h2 s2 o' v' s3 es' HX IH E']; intro Eh; subst.
  - change [(o, v, es)] with ([] ++ [(o, v, es)]). econstructor; [constructor|exact E].
  - change ((o, v, es) :: tr ++ [(o', v', es')]) with (((o, v, es) :: tr) ++ [(o', v', es')]). econstructor; [apply IH; [exact E|reflexivity]|exact E'].
Qed.
Lemma go_rexec {S} (call : rop -> M S hev rval) os : forall h s tr h' s', go call h s os = Some (tr, h', s') -> rexec call h s tr h' s' /\ map (fun t => fst (fst t)) tr = os.
Proof.
  induction os as [|o os IH]; intros h s tr h' s' E; cbn [go] in E.
  - injection E as <- <- <-. split; [constructor|reflexivity].
  - destruct (call o h s) as [[[v s1] es]|] eqn:Ec; [|discriminate]. destruct (go call (h ++ es) s1 os) as [[[tr1 h1] s2]|] eqn:Eg; [|discriminate]. injection E as <- <- <-.
    destruct (IH _ _ _ _ _ Eg) as [HX HM]. split; [eapply rexec_cons; eassumption|]. cbn [map fst]. rewrite HM. reflexivity.
Qed.
(** [op_wf] decided *)
Definition byteb (x : Z) : bool := (0 <=? x) && (x <? 256).
Definition rop_wfb (o : rop) : bool :=
  match o with
  | PInit _ d => (0 <=? Sx126x.tcxo_timeout d) && (Sx126x.tcxo_timeout d <? 65536) && byteb (Sx126x.tcxo_voltage d)
  | PFreq f => (0 <=? f) && (f <? 4294967296)
  | PPower p => (-128 <=? p) && (p <? 128)
  | PSetup p => (0 <=? p_sf p) && (p_sf p <=? 6) && (0 <=? p_bw p) && (p_bw p <=? 2) && (0 <=? p_cr p) && (p_cr p <=? 3) && (0 <=? p_preamble_len p) && (p_preamble_len p <? 65536)
  | PTx buf => forallb byteb buf && (len buf <=? 255)
  | PRx n symb t => byteb n && (0 <=? symb) && (symb <? 65536) && (0 <=? t) && (t <? 4294967296)
  | PRead cap => byteb cap
  | _ => true
  end.
Lemma rop_wfb_ok o : rop_wfb o = true -> rop_wf o.
Proof.
  destruct o; cbn [rop_wfb rop_wf]; unfold byteb, is_byte, params_wf; try tauto; try lia.
  intro Hb. apply Bool.andb_true_iff in Hb as [Hb Hl]. split; [|lia]. apply Forall_forall. intros x Hx. rewrite forallb_forall in Hb. specialize (Hb x Hx). unfold is_byte. lia.
Qed.
Definition starts (os : list rop) : bool := match os with PInit _ _ :: _ => true | _ => false end.
Lemma go_wf {S} (call : rop -> M S hev rval) os h s tr h' s' : go call h s os = Some (tr, h', s') -> forallb rop_wfb os = true -> starts os = true -> rtrace_wf tr.
Proof.
  intros E W Hs. destruct (go_rexec _ _ _ _ _ _ _ E) as [_ HM]. split.
  - apply Forall_forall. intros t Ht. apply rop_wfb_ok. rewrite forallb_forall in W. apply W. rewrite <- HM. apply (in_map (fun t => fst (fst t))), Ht.
  - destruct tr as [|[[o v] es] tr]; [subst os; discriminate|]. subst os. cbn in Hs. destruct o; try discriminate. eauto 6.
Qed.
Definition run127 H os := go (call127 H) [] Sx127x.d127_0 os.
Definition run126 H os := go (call126 H) [] Sx126x.d126_0 os.
Lemma run127_used H os tr h s : run127 H os = Some (tr, h, s) -> forallb rop_wfb os = true -> starts os = true -> used127 H tr h s.
Proof. intros E W Hs. split; [apply (go_rexec _ _ _ _ _ _ _ E)|eapply go_wf; eassumption]. Qed.
Lemma run126_used H os tr h s : run126 H os = Some (tr, h, s) -> forallb rop_wfb os = true -> starts os = true -> used126 H tr h s.
Proof. intros E W Hs. split; [apply (go_rexec _ _ _ _ _ _ _ E)|eapply go_wf; eassumption]. Qed.
(** a case: after the calls [os], the call [o] does [P] *)
Definition case {S} (call : rop -> M S hev rval) (s0 : S) (os : list rop) (o : rop) (P : list rentry -> rval -> list item -> list item -> bool) : bool :=
  match go call [] s0 os with
  | Some (tr, h, s) =>
      match call o h s with
      | Ok (v, s', es) => match transcript h, transcript es with Some hi, Some its => P tr v hi its | _, _ => false end
      | Undef _ => false
      end
  | None => false
  end.
Lemma case127_ok H os o P : case (call127 H) Sx127x.d127_0 os o P = true -> forallb rop_wfb (o :: os) = true -> starts os = true ->
  exists tr h s v s' es hi its, does127 H tr h s o v s' es hi its /\ P tr v hi its = true.
Proof.
  unfold case. intros E W Hs. cbn [forallb] in W. apply Bool.andb_true_iff in W as [Wo W]. destruct (go (call127 H) [] Sx127x.d127_0 os) as [[[tr h] s]|] eqn:Eg; [|discriminate].
  destruct (call127 H o h s) as [[[v s'] es]|] eqn:Ec; [|discriminate]. destruct (transcript h) as [hi|] eqn:Eh; [|discriminate]. destruct (transcript es) as [its|] eqn:Ei; [|discriminate].
  exists tr, h, s, v, s', es, hi, its. split; [|exact E]. split; [apply (run127_used H os); assumption|split; [apply rop_wfb_ok, Wo|auto]].
Qed.
Lemma case126_ok H os o P : case (call126 H) Sx126x.d126_0 os o P = true -> forallb rop_wfb (o :: os) = true -> starts os = true ->
  exists tr h s v s' es hi its, does126 H tr h s o v s' es hi its /\ P tr v hi its = true.
Proof.
  unfold case. intros E W Hs. cbn [forallb] in W. apply Bool.andb_true_iff in W as [Wo W]. destruct (go (call126 H) [] Sx126x.d126_0 os) as [[[tr h] s]|] eqn:Eg; [|discriminate].
  destruct (call126 H o h s) as [[[v s'] es]|] eqn:Ec; [|discriminate]. destruct (transcript h) as [hi|] eqn:Eh; [|discriminate]. destruct (transcript es) as [its|] eqn:Ei; [|discriminate].
  exists tr, h, s, v, s', es, hi, its. split; [|exact E]. split; [apply (run126_used H os); assumption|split; [apply rop_wfb_ok, Wo|auto]].
Qed.
(** a working chip, calls [os] and then [o], for which [P] holds *)
Definition case127 (os : list rop) (o : rop) (P : c127 -> list rentry -> rval -> list item -> list item -> bool) : Prop :=
  exists H c0 tr h s v s' es hi its, henv_ok H /\ answers127 c0 H /\ does127 H tr h s o v s' es hi its /\ P c0 tr v hi its = true.
Lemma case127_intro t os o P : look t 1 0 = None -> look t 30 0 = None -> forallb rop_wfb (o :: os) = true -> starts os = true ->
  case (call127 (sim127 t on127)) Sx127x.d127_0 os o (P on127) = true -> case127 os o P.
Proof.
  intros L1 L30 W Hs E. destruct (case127_ok _ _ _ _ E W Hs) as (tr & h & s & v & s' & es & hi & its & D & HP).
  exists (sim127 t on127), on127, tr, h, s, v, s', es, hi, its. split; [apply sim127_ok|]. split; [apply sim127_answers; assumption|]. auto.
Qed.
Ltac show127 t := apply (case127_intro t); vm_compute; reflexivity.
Definition zlist_eqb (a b : list Z) : bool := if list_eq_dec Z.eq_dec a b then true else false.
Lemma zlist_eqb_eq a b : zlist_eqb a b = true -> a = b.
Proof. unfold zlist_eqb. destruct (list_eq_dec Z.eq_dec a b); [auto|discriminate]. Qed.
(** an SX1261/2 that answers as [t] says, by command, and 0 otherwise *)
Definition sim126 (t : list (Z * list Z)) : henv := Mk_henv (fun h o =>
  (match hist h with
   | (_, Some ((a, _) :: x)) => match look t a (length x) with Some v => v | None => 0 end
   | _ => 0
   end) mod 256) true.
Lemma sim126_ok t : henv_ok (sim126 t). Proof. intros h o. apply Z.mod_pos_bound. lia. Qed.
Definition on126 : c126 := Mk_c126 7 1 [1] 1 [2] [3] 4 5 (fun _ => 165) (fun _ => 90) [].
Definition case126 (os : list rop) (o : rop) (P : c126 -> list rentry -> rval -> list item -> list item -> bool) : Prop :=
  exists H c0 tr h s v s' es hi its, henv_ok H /\ does126 H tr h s o v s' es hi its /\ P c0 tr v hi its = true.
Lemma case126_intro t os o P : forallb rop_wfb (o :: os) = true -> starts os = true -> case (call126 (sim126 t)) Sx126x.d126_0 os o (P on126) = true -> case126 os o P.
Proof.
  intros W Hs E. destruct (case126_ok _ _ _ _ E W Hs) as (tr & h & s & v & s' & es & hi & its & D & HP).
  exists (sim126 t), on126, tr, h, s, v, s', es, hi, its. split; [apply sim126_ok|]. auto.
Qed.
Ltac show126 t := apply (case126_intro t); vm_compute; reflexivity.
