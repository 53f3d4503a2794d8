(** Prop_Safe.v -- undefined behaviour and crypto contexts: C36, C40. *)
From Verif Require Import LTime Prop_Join Prop_Down.

(** ** C36 No undefined behaviour *)
(** the property, for out-of-bounds accesses, NULL dereferences, endless loops
    (and, beyond its wording, overflow, division by zero and bad shifts) *)
Definition C36_claim (P : env -> op -> Prop) : Prop := forall E w o k,
  env_ok E -> reachable E w -> op_wf o -> P E o -> call E o (w_hist w) (w_st w) <> Undef k.

(** refuted outside the clock-sync extension: the missing handler of C24 *)
Theorem C36_refuted : ~ C36_claim (fun E o => e_strict_shl E = false /\ forall e b n p, o <> OCsHandle e b n p).
Proof.
  intro C. set (E := demo [] []). set (ops := abp 0 7 ++ [ODevTimeReq; OSend 1 [7] false]).
  assert (X : forallb op_wfb ops && runs E ops = true) by (vm_compute; reflexivity).
  apply (C E (after E ops) (OIrq 4) UB_null); [apply demo_ok|apply after_reach; exact X|apply op_wfb_ok; reflexivity|split; [reflexivity|discriminate]|vm_compute; reflexivity].
Qed.
Print Assumptions C36_refuted.
(** refuted for the clock-sync extension: a one-byte message ForceDeviceResyncReq is
    read past its end *)
Theorem C36_clock_refuted : ~ (forall E w e b n p, env_ok E -> reachable E w -> op_wf (OCsHandle e b n p) ->
  call E (OCsHandle e b n p) (w_hist w) (w_st w) <> Undef UB_oob).
Proof.
  intro C. set (E := demo [] []). set (ops := [OCsInit (Some (Mk_cs_cbs true))]).
  assert (X : forallb op_wfb ops && runs E ops = true) by (vm_compute; reflexivity).
  apply (C E (after E ops) ERR_NO (Some [3]) 1 202); [apply demo_ok|apply after_reach; exact X|apply op_wfb_ok; reflexivity|vm_compute; reflexivity].
Qed.
Print Assumptions C36_clock_refuted.

(** What can go wrong at all, for every history, environment and call: (a) shifting
    a byte into the sign bit, where the strict reading of C11 6.5.7 is asked for;
    (b) the missing handler; (c) a message given to the clock-sync extension. In
    particular nothing diverges or divides by zero, and outside (b) and (c) no
    access is out of bounds, no NULL pointer dereferenced, nothing overflows. *)
Theorem C36_partial : forall E ops tr w o k,
  env_ok E -> Forall op_wf ops -> exec E world0 ops tr w -> op_wf o -> call E o (w_hist w) (w_st w) = Undef k ->
  (e_strict_shl E = true /\ k = UB_shift) \/
  (k = UB_null /\ handlers tr = None /\ time_pending tr = true /\ exists m, o = OIrq m /\ uw_state (stk w) = TX /\ Z.testbit m 2 = true) \/
  ((k = UB_shift \/ k = UB_overflow \/ k = UB_oob) /\ exists e b n p, o = OCsHandle e b n p).
Proof.
  intros E ops tr w o k HE Ho Hx Hw Q. pose proof (exec_Inv E world0 _ _ _ HE power_on_Inv Ho Hx) as HI.
  destruct (exec_time E ops tr w HE Ho Hx) as (T1 & T2 & _).
  destruct (call_undef E o _ _ _ HE HI Hw Q) as [X|[(m & X1 & X2 & X3 & X4 & A & B)|(e & b & n & p & X1 & X2)]].
  - left. exact X.
  - right. left. rewrite T1 in A. rewrite T2 in B. eauto 10.
  - right. right. split; [exact X2|]. eauto.
Qed.
Print Assumptions C36_partial.
(** So every call of the stack returns. *)
Theorem C36_returns_partial : forall E ops tr w o,
  env_ok E -> Forall op_wf ops -> exec E world0 ops tr w -> op_wf o -> e_strict_shl E = false ->
  (forall e b n p, o <> OCsHandle e b n p) -> handlers tr <> None \/ time_pending tr = false ->
  exists v es w', step E w o = Some (v, es, w').
Proof.
  intros E ops tr w o HE Ho Hx Hw Hs Hc Hp. unfold step.
  destruct (call E o (w_hist w) (w_st w)) as [[[v s'] es]|k] eqn:Q; [eauto|exfalso].
  destruct (C36_partial E ops tr w o k HE Ho Hx Hw Q) as [(X & _)|[(_ & A & B & _)|(_ & e & b & n & p & X)]].
  - congruence.
  - destruct Hp; congruence.
  - exact (Hc _ _ _ _ X).
Qed.
Print Assumptions C36_returns_partial.
(** a hostile downlink: truncated commands behind a long option field *)
Example C36_case : case_of (demo [] [(dl 8 false 0 [6; 6; 6; 5; 255; 255; 255; 255; 7; 255; 255; 255; 255; 255; 3] None, 9)])
  (abp 0 7 ++ after_uplink) (OIrq 2)
  (fun w v es w' => recvb w 2 && cb_is ERR_NO es && (len (fopts w') =? 13)).
Proof. show_case. Qed.
(** a one-byte frame *)
Example C36_short_case : case_of (demo [] [([96], 9)]) (abp 0 7 ++ after_uplink) (OIrq 2)
  (fun w v es w' => recvb w 2 && negb (cb_is ERR_NO es)).
Proof. show_case. Qed.

(** ** C40 Crypto contexts are balanced *)
Theorem C40_balanced : forall E w o v es w',
  env_ok E -> reachable E w -> op_wf o -> step E w o = Some (v, es, w') -> crypto_balanced es.
Proof.
  intros E w o v es w' HE Hr Hw H. apply (step_phase E w o v es w' HE (reach_Inv E w HE Hr) Hw H).
Qed.
Print Assumptions C40_balanced.
Definition count_ev (p : ev -> bool) (es : list ev) : nat := length (filter p es).
Definition is_aes_new (e : ev) : bool := match e with CAesNew _ => true | _ => false end.
Definition is_cmac_new (e : ev) : bool := match e with CCmacNew _ => true | _ => false end.
(** an encrypted downlink: one MIC, one decryption *)
Example C40_case : case_of (demo [] [(dl 8 false 0 [] (Some (5, [1; 2; 3])), 9)]) (abp 0 7 ++ after_uplink) (OIrq 2)
  (fun w v es w' => cb_is ERR_NO es && Nat.eqb (count_ev is_aes_new es) 1 && Nat.eqb (count_ev is_cmac_new es) 1).
Proof. show_case. Qed.
(** an error path: forged MIC *)
Example C40_forged_case : case_of (demo [] [(flip_last (dl 8 false 0 [] (Some (5, [1; 2; 3]))), 9)]) (abp 0 7 ++ after_uplink) (OIrq 2)
  (fun w v es w' => cb_is ERR_MSG_MIC es && Nat.eqb (count_ev is_cmac_new es) 1).
Proof. show_case. Qed.
(** a join-accept: decryption, MIC, two derived keys *)
Example C40_join_case : case_of (demo [] [(ja_demo, 5)]) (join_ops RU864) (OIrq 2)
  (fun w v es w' => cb_is ERR_NO es && (2 <=? count_ev is_aes_new es)%nat && Nat.eqb (count_ev is_cmac_new es) 1).
Proof. show_case. Qed.
