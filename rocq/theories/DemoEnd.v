(** DemoEnd.v -- a session of stack, driver and chip, for the examples *)
From Verif Require Import Demo DemoRadio DemoSys DemoLink Prop_Down Prop_Net Prop_Net2 LDown3.
From Verif Require Export SpecEnd.

Definition with_noise (r : Z) (E : env) : env := Mk_env (e_aes E) (e_cmac E) (e_rand E) (fun _ => r) (e_pkt E) (e_battery E) (e_devtime E) (e_unixtime E) (e_strict_shl E).
Lemma with_noise_ok r E : u32b r = true -> env_ok E -> env_ok (with_noise r E).
Proof. intros Q []. constructor; try assumption; intros; cbn [with_noise e_radio_rand]; unfold u32b in Q; lia. Qed.
(** the setting of C94: a session after some calls, and the driver's entries for both *)
Definition phases {S} (call : rop -> M S hev rval) (s0 : S) (E : env) (tr0 : list entry) (w : world) (tr : list entry) (w' : world) (dtr0 dtr1 : list rentry) (h0 h : list hev) : Prop :=
  exists ops0 ops s1 s, Forall op_wf ops0 /\ exec E world0 ops0 tr0 w /\ Forall op_wf ops /\ exec E w ops tr w' /\
    joining w = false /\ Forall (fun t => ~ new_session_entry t /\ join_call t = false) tr /\ Forall no_port_0 tr /\
    drives (all_evs tr0) dtr0 /\ drives (all_evs (tr0 ++ tr)) (dtr0 ++ dtr1) /\ rexec call [] s0 dtr0 h0 s1 /\ rexec call h0 s1 dtr1 h s.
Definition noport0b (t : entry) : bool := match fst (fst t) with OSend port d _ => negb (port =? 0) || match d with [] => true | _ => false end | _ => true end.
Lemma noport0b_ok tr : forallb noport0b tr = true -> Forall no_port_0 tr.
Proof.
  intro Q. rewrite forallb_forall in Q. apply Forall_forall. intros t I. specialize (Q t I). destruct t as [[o v] es]. unfold no_port_0, noport0b in *. cbn [fst] in *. destruct o; try exact Logic.I.
  apply Bool.orb_true_iff in Q as [Q|Q]; [left; lia|right; destruct payload; [reflexivity|discriminate]].
Qed.
Definition in_phases {S} (call : rop -> M S hev rval) (s0 : S) (d : Sx126x.sx126x_opts) (E : env) (pre ops : list op) (P : list entry -> world -> list entry -> list rentry -> list item -> list item -> bool) : bool :=
  forallb op_wfb (pre ++ ops) &&
  match run E world0 pre with
  | None => false
  | Some (tr0, w) => match run E w ops with
    | None => false
    | Some (tr, w') => negb (joining w) && forallb nonewb tr && forallb (fun t => negb (join_call t)) tr && forallb noport0b tr &&
      match go call [] s0 (PInit hal_full d :: link_calls tr0) with
      | None => false
      | Some (dtr0, h0, s1) => match go call h0 s1 (link_calls tr) with
        | None => false
        | Some (dtr1, h, s) => drivesb (all_evs tr0) dtr0 && drivesb (all_evs (tr0 ++ tr)) (dtr0 ++ dtr1) &&
            match transcript h0, transcript h with Some hi0, Some hi => P tr0 w tr dtr1 hi0 hi | _, _ => false end
        end
      end
    end
  end.
Lemma in_phases_ok {S} (call : rop -> M S hev rval) s0 d E pre ops P : in_phases call s0 d E pre ops P = true ->
  exists tr0 w tr w' dtr0 dtr1 h0 h hi0 hi, phases call s0 E tr0 w tr w' dtr0 dtr1 h0 h /\ transcript h0 = Some hi0 /\ transcript h = Some hi /\ P tr0 w tr dtr1 hi0 hi = true.
Proof.
  unfold in_phases. intro Q. apply andb_prop in Q as [Qw Q]. rewrite forallb_app in Qw. apply andb_prop in Qw as [Qw1 Qw2]. destruct (run E world0 pre) as [[tr0 w]|] eqn:R0; [|discriminate]. destruct (run E w ops) as [[tr w']|] eqn:R1; [|discriminate].
  apply andb_prop in Q as [N Q]. destruct (go call [] s0 (PInit hal_full d :: link_calls tr0)) as [[[dtr0 h0] s1]|] eqn:G0; [|discriminate]. destruct (go call h0 s1 (link_calls tr)) as [[[dtr1 h] s]|] eqn:G1; [|discriminate].
  apply andb_prop in Q as [D Q]. apply andb_prop in D as [D0 D1]. destruct (transcript h0) as [hi0|] eqn:T0; [|discriminate]. destruct (transcript h) as [hi|] eqn:T1; [|discriminate].
  apply andb_prop in N as [N N4]. apply andb_prop in N as [N N3]. apply andb_prop in N as [N1 N2].
  exists tr0, w, tr, w', dtr0, dtr1, h0, h, hi0, hi. split; [|auto]. exists pre, ops, s1, s.
  split; [apply Forall_forall; intros o Ho; rewrite forallb_forall in Qw1; apply op_wfb_ok, Qw1, Ho|]. split; [apply run_exec, R0|].
  split; [apply Forall_forall; intros o Ho; rewrite forallb_forall in Qw2; apply op_wfb_ok, Qw2, Ho|]. split; [apply run_exec, R1|]. split; [apply Bool.negb_true_iff, N1|].
  split. { apply nonewb_ok in N2. rewrite Forall_forall in *. rewrite forallb_forall in N3. intros t It. split; [exact (N2 t It)|apply Bool.negb_true_iff, N3, It]. }
  split; [apply noport0b_ok, N4|]. split; [apply drivesb_ok, D0|]. split; [apply drivesb_ok, D1|]. split; [apply (go_rexec _ _ _ _ _ _ _ G0)|apply (go_rexec _ _ _ _ _ _ _ G1)].
Qed.
(** Four uplinks over the rollover of the 16 bits; downlink 5 in RX1 of the first, nothing
    after the second, downlink 5 again in RX2 of the third, downlink 6 in RX1 of the
    fourth, which has no payload *)
Definition chat : list op := [OSend 1 [1; 2] false; OIrq 4; OTimer TIMER_RX1; OIrq 2] ++ [OSend 2 (repeat 3 40) true] ++ pause ++
  [OSend 9 [7] false; OIrq 4; OTimer TIMER_RX1; OIrq 1; OTimer TIMER_RX2; OIrq 2] ++ [OLinkCheckReq; OSend 3 [] false; OIrq 4; OTimer TIMER_RX1; OIrq 2].
Definition chat_in : list Z := [5; 5; 6].
Definition chat_flags (tx rx to : list Z) : list (list Z) := [tx; rx] ++ [tx; to; to] ++ [tx; to; rx] ++ [tx; rx].
Definition chat_ok (E : env) (tr0 : list entry) (w : world) (tr : list entry) (fetched : list (list Z)) (air0 air : list act) : bool :=
  (if list_eq_dec (list_eq_dec Z.eq_dec) fetched (map (server_frame E (ses w) net_msg) chat_in) then true else false) && (top_of w =? 4) && (f_cnt_up (ses w) =? 65533) &&
  (length (said E tr0 tr) =? 4)%nat && (length (deliveries tr) =? 2)%nat && (length air0 =? 1)%nat && (length air =? 11)%nat.
Lemma chat_ok_inv E tr0 w tr fe a0 a : chat_ok E tr0 w tr fe a0 a = true ->
  fe = map (server_frame E (ses w) net_msg) chat_in /\ top_of w = 4 /\ f_cnt_up (ses w) = 65533 /\ length (said E tr0 tr) = 4%nat /\ length (deliveries tr) = 2%nat /\ length a0 = 1%nat /\ length a = 11%nat.
Proof.
  unfold chat_ok. intro Q. repeat (apply andb_prop in Q as [Q ?]). destruct (list_eq_dec _ _ _) as [F|]; [|discriminate Q]. repeat match goal with H : (_ =? _)%nat = true |- _ => apply Nat.eqb_eq in H end. repeat (split; [assumption||lia|]). assumption.
Qed.
Lemma chat_heard : heard 4 chat_in /\ fresh 4 chat_in = [5; 6] /\ passable (-1) [1; 0; 2; 2] /\ fresh (-1) [1; 0; 2; 2] = [1; 2].
Proof. split; [|split; [reflexivity|split; [|reflexivity]]]; cbn; repeat split; discriminate. Qed.
