(** DemoRest.v -- stack and driver run together until the stack is idle *)
From Verif Require Import SpecTx SpecSys Demo.
From Verif Require Export DemoRadio DemoSys.

(** the stack's calls, each after an interrupt *)
Definition woken (es : list ev) : list rop := flat_map (fun e => match call_for e with [] => [] | l => PIrq :: l end) es.
Definition idleb (tr : list entry) : bool := match phase_of tr with P_idle => true | _ => false end.
Definition sys_by {S} (mix : list ev -> list rop) (call : rop -> M S hev rval) (s0 : S) (d : Sx126x.sx126x_opts) (E : env) (ops : list op) (P : list rentry -> list item -> bool) : bool :=
  forallb op_wfb ops && match run E world0 ops with
  | Some (tr, w) => idleb tr && match go call [] s0 (PInit hal_full d :: mix (all_evs tr)) with
      | Some (dtr, h, s) => drivesb (all_evs tr) dtr && match transcript h with Some hi => P dtr hi | None => false end
      | None => false end
  | None => false end.
Lemma sys_by_ok {S} mix (call : rop -> M S hev rval) s0 d E ops P : sys_by mix call s0 d E ops P = true ->
  exists tr w dtr h s hi, Forall op_wf ops /\ exec E world0 ops tr w /\ phase_of tr = P_idle /\ drives (all_evs tr) dtr /\ rexec call [] s0 dtr h s /\ transcript h = Some hi /\ P dtr hi = true.
Proof.
  unfold sys_by. intro Q. apply andb_prop in Q as [Qw Q]. destruct (run E world0 ops) as [[tr w]|] eqn:Er; [|discriminate]. apply andb_prop in Q as [Qi Q].
  destruct (go call [] s0 _) as [[[dtr h] s]|] eqn:Eg; [|discriminate]. apply andb_prop in Q as [Qd Q]. destruct (transcript h) as [hi|] eqn:Et; [|discriminate].
  exists tr, w, dtr, h, s, hi. split; [apply Forall_forall; intros o Ho; apply op_wfb_ok; revert o Ho; apply forallb_forall; exact Qw|]. split; [apply run_exec; exact Er|].
  split; [unfold idleb in Qi; destruct (phase_of tr); congruence|]. split; [apply drivesb_ok; exact Qd|]. split; [apply (go_rexec _ _ _ _ _ _ _ Eg)|]. auto.
Qed.
