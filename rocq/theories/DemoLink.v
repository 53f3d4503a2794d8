(** DemoLink.v -- stack and driver calling each other, for the examples *)
From Verif Require Import Demo DemoRadio DemoSys.
From Verif Require Export SpecLink.

(** a chip that gives the flags [fl] one after the other to a status read of [a], and
    otherwise answers as [base] *)
Definition with_flags (a : Z) (fl : list (list Z)) (base : henv) : henv := Mk_henv (fun h o =>
  match hist h with
  | (d, Some ((b, u) :: x)) =>
      if b =? a then (nth (length x) (nth (length (filter (fun i => match i with Tr ((c, _) :: _) => c =? a | _ => false end) d)) fl []) 0) mod 256
      else h_xfer base h o
  | _ => h_xfer base h o
  end) (h_strict_shl base).
Lemma with_flags_ok a fl base : henv_ok base -> henv_ok (with_flags a fl base).
Proof. intros B h o. cbn. destruct (hist h) as (d & [[|[b u] x]|]); try apply B. destruct (b =? a); [apply Z.mod_pos_bound; lia|apply B]. Qed.
Fixpoint take_served (es : list ev) (dtr : list rentry) : option (list rentry) :=
  match es, dtr with
  | [], _ => Some dtr
  | e :: es', t :: dtr' => if servedb e t then take_served es' dtr' else None
  | _, [] => None
  end.
Lemma take_served_ok es : forall dtr rest, take_served es dtr = Some rest -> exists ds, dtr = ds ++ rest /\ Forall2 served es ds.
Proof.
  induction es as [|e es IH]; intros dtr rest Q; cbn in Q; [injection Q as ->; exists []; split; [reflexivity|constructor]|]. destruct dtr as [|t dtr]; [discriminate|]. destruct (servedb e t) eqn:S; [|discriminate].
  destruct (IH _ _ Q) as (ds & -> & F). exists (t :: ds). split; [reflexivity|]. constructor; [apply servedb_ok, S|exact F].
Qed.
Fixpoint linkb (tr : list entry) (dtr : list rentry) : bool :=
  match tr with
  | [] => match dtr with [] => true | _ => false end
  | (o, v, es) :: tr' =>
      match o, dtr with
      | OIrq m, (PIrq, _, l) :: dtr' => existsb (fun e => match e with HUser n => n =? m | _ => false end) l &&
          match take_served (filter asks_radio es) dtr' with Some rest => linkb tr' rest | None => false end
      | OIrq _, _ => false
      | _, _ => match take_served (filter asks_radio es) dtr with Some rest => linkb tr' rest | None => false end
      end
  end.
Lemma linkb_ok tr : forall dtr tr0 dtr0, linkb tr dtr = true -> linked tr0 dtr0 -> linked (tr0 ++ tr) (dtr0 ++ dtr).
Proof.
  induction tr as [|[[o v] es] tr IH]; intros dtr tr0 dtr0 Q L; cbn [linkb] in Q.
  - destruct dtr; [|discriminate]. rewrite !app_nil_r. exact L.
  - assert (G : forall ds rest, link1 (o, v, es) ds -> linkb tr rest = true -> linked (tr0 ++ (o, v, es) :: tr) (dtr0 ++ ds ++ rest)).
    { intros ds rest K B. change ((o, v, es) :: tr) with ([(o, v, es)] ++ tr). rewrite !app_assoc. apply IH; [exact B|]. apply linked_step; assumption. }
    assert (N : (forall m, o <> OIrq m) -> match take_served (filter asks_radio es) dtr with Some rest => linkb tr rest | None => false end = true -> linked (tr0 ++ (o, v, es) :: tr) (dtr0 ++ dtr)).
    { intros No B. destruct (take_served (filter asks_radio es) dtr) as [rest|] eqn:T; [|discriminate]. destruct (take_served_ok _ _ _ T) as (ds & -> & F). apply G; [constructor; assumption|exact B]. }
    destruct o; try (apply N; [discriminate|exact Q]). destruct dtr as [|[[p r] l] dtr]; [discriminate|]. destruct p; try discriminate. apply andb_prop in Q as [Q1 Q2].
    destruct (take_served (filter asks_radio es) dtr) as [rest|] eqn:T; [|discriminate]. destruct (take_served_ok _ _ _ T) as (ds & -> & F). apply (G ((PIrq, r, l) :: ds)); [|exact Q2].
    constructor; [|exact F]. apply existsb_exists in Q1 as (e & I & B). destruct e; try discriminate. apply Z.eqb_eq in B. subst. exact I.
Qed.
(** the driver's calls for a run of the stack *)
Definition link_calls (tr : list entry) : list rop :=
  flat_map (fun t => (match fst (fst t) with OIrq _ => [PIrq] | _ => [] end) ++ flat_map call_for (snd t)) tr.
Definition coupled {S} (call : rop -> M S hev rval) (s0 : S) (d : Sx126x.sx126x_opts) (E : env) (ops : list op) (m : Z) (P : list (err * Z * dlview) -> bool) : bool :=
  forallb op_wfb (ops ++ [OIrq m]) &&
  match run E world0 (ops ++ [OIrq m]) with
  | Some (tr, w) =>
      match go call [] s0 (PInit hal_full d :: link_calls tr) with
      | Some ((PInit hal d', RvBool true, l) :: dtr, h, s) => rop_wfb (PInit hal d') && linkb tr dtr &&
          match rev tr with (o, v, es) :: _ => match o with OIrq n => n =? m | _ => false end && P (callbacks es) | [] => false end
      | _ => false
      end
  | None => false
  end.
Lemma coupled_ok {S} (call : rop -> M S hev rval) s0 d E ops m P : coupled call s0 d E ops m P = true ->
  exists ops' tr w dtr h s tr1 v es, Forall op_wf ops' /\ exec E world0 ops' tr w /\ linked tr dtr /\ rexec call [] s0 dtr h s /\ tr = tr1 ++ [(OIrq m, v, es)] /\ P (callbacks es) = true.
Proof.
  unfold coupled. intro Q. apply andb_prop in Q as [Qw Q]. destruct (run E world0 (ops ++ [OIrq m])) as [[tr w]|] eqn:Er; [|discriminate].
  destruct (go call [] s0 (PInit hal_full d :: link_calls tr)) as [[[dtr h] s]|] eqn:Eg; [|discriminate]. destruct dtr as [|[[o r] l] dtr]; [discriminate|]. destruct o; try discriminate. destruct r as [|[|]| |]; try discriminate.
  apply andb_prop in Q as [Q Q3]. apply andb_prop in Q as [Q1 Q2]. destruct (rev tr) as [|[[o v] es] rt] eqn:Ev; [discriminate|]. apply andb_prop in Q3 as [Q3 Q4]. destruct o; try discriminate. apply Z.eqb_eq in Q3. subst mask.
  exists (ops ++ [OIrq m]), tr, w, ((PInit hal opts, RvBool true, l) :: dtr), h, s, (rev rt), v, es. split; [apply Forall_forall; intros o Ho; rewrite forallb_forall in Qw; apply op_wfb_ok, Qw, Ho|]. split; [apply run_exec, Er|].
  split; [apply (linkb_ok tr dtr [] [(PInit hal opts, RvBool true, l)] Q2); constructor; apply rop_wfb_ok, Q1|]. split; [apply (go_rexec _ _ _ _ _ _ _ Eg)|].
  split; [|exact Q4]. rewrite <- (rev_involutive tr), Ev. reflexivity.
Qed.
(** an uplink; nothing in RX1; the end of RX2 is to follow *)
Definition to_rx2 : list op := [OSend 1 [1; 2; 3] false; OIrq 4; OTimer TIMER_RX1; OIrq 1; OTimer TIMER_RX2].
(** the callback of a frame with data *)
Definition told (t : Z) (data : list Z) (port rssi snr : Z) (cb : list (err * Z * dlview)) : bool :=
  match cb with
  | [(ERR_NO, t', Mk_dlview (Some d) n p r s)] => (t' =? t) && zlist_eqb d data && (n =? len data) && (p =? port) && (r =? rssi) && (s =? snr)
  | _ => false
  end.
Lemma told_ok t data port rssi snr cb : told t data port rssi snr cb = true -> cb = [(ERR_NO, t, Mk_dlview (Some data) (len data) port rssi snr)].
Proof.
  destruct cb as [|[[e t'] [[d|] n p r s]] [|x cb]]; cbn; try (destruct e; discriminate); try discriminate. destruct e; try discriminate. intro Q.
  repeat (apply andb_prop in Q as [Q ?]). match goal with Hd : zlist_eqb _ _ = true |- _ => apply zlist_eqb_eq in Hd; subst d end. repeat f_equal; lia.
Qed.
