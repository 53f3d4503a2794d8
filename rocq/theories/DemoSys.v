(** DemoSys.v -- the stack, a driver and a chip run together, for the examples *)
From Verif Require Import Demo DemoRadio.
From Verif Require Export SpecSys.

(** [demo] with a radio that returns the given random number and packet *)
Definition with_radio (r : Z) (p : rxpkt) (E : env) : env := Mk_env (e_aes E) (e_cmac E) (e_rand E) (fun _ => r) (fun _ => p) (e_battery E) (e_devtime E) (e_unixtime E) (e_strict_shl E).
Definition rx_okb (p : rxpkt) : bool := (length (rx_data p) <=? 255)%nat && forallb Demo.byteb (rx_data p) && (-128 <=? rx_snr p) && (rx_snr p <? 128) && (-32768 <=? rx_rssi p) && (rx_rssi p <? 32768).
Lemma with_radio_ok r p rands pkts : u32b r && rx_okb p = true -> env_ok (with_radio r p (demo rands pkts)).
Proof.
  intro Q. apply andb_prop in Q as [Qr Qp]. unfold rx_okb in Qp. repeat (apply andb_prop in Qp as [Qp ?]). destruct (demo_ok rands pkts). constructor; try assumption; intros; cbn [with_radio e_radio_rand e_pkt]; unfold u32b in Qr; try lia.
  - apply Nat.leb_le. assumption.
  - apply forallb_bytes. assumption.
Qed.
(** the driver call for a call of the stack *)
Definition call_for (e : ev) : list rop :=
  match e with
  | RSetHandler => [PHandler true] | RRand _ => [PRand] | RSetFreq f => [PFreq f] | RSetup p => [PSetup p] | RSetPower p => [PPower p]
  | RTx b => [PTx b] | RRx n symb t => [PRx n symb t] | RRead _ => [PRead 255] | RSleep => [PSleep] | _ => []
  end.
Definition rx_eqb (a b : rxpkt) : bool := zlist_eqb (rx_data a) (rx_data b) && (rx_rssi a =? rx_rssi b) && (rx_snr a =? rx_snr b).
Lemma rx_eqb_eq a b : rx_eqb a b = true -> a = b.
Proof. unfold rx_eqb. intro Q. apply andb_prop in Q as [Q Q3]. apply andb_prop in Q as [Q1 Q2]. apply zlist_eqb_eq in Q1. destruct a, b. cbn in *. f_equal; [exact Q1|lia|lia]. Qed.
Definition par_eqb (a b : params) : bool :=
  (p_sf a =? p_sf b) && (p_bw a =? p_bw b) && (p_cr a =? p_cr b) && (p_preamble_len a =? p_preamble_len b) && Bool.eqb (p_crc_on a) (p_crc_on b) && Bool.eqb (p_inverted_iq a) (p_inverted_iq b) && Bool.eqb (p_implicit_header a) (p_implicit_header b).
Lemma par_eqb_eq a b : par_eqb a b = true -> a = b.
Proof. unfold par_eqb. intro Q. repeat (apply andb_prop in Q as [Q ?]). destruct a, b. cbn in *. f_equal; first [lia|apply Bool.eqb_prop; assumption]. Qed.
Definition servedb (e : ev) (t : rentry) : bool :=
  match e, t with
  | RSetHandler, (PHandler true, _, _) => true
  | RRand n, (PRand, RvNum m, _) => n =? m
  | RSetFreq f, (PFreq g, _, _) => f =? g
  | RSetup p, (PSetup q, _, _) => par_eqb p q
  | RSetPower p, (PPower q, _, _) => p =? q
  | RTx b, (PTx c, _, _) => zlist_eqb b c
  | RRx n symb t, (PRx n' symb' t', _, _) => (n =? n') && (symb =? symb') && (t =? t')
  | RRead p, (PRead k, RvPkt q, _) => (k =? 255) && rx_eqb p q
  | RSleep, (PSleep, _, _) => true
  | _, _ => false
  end.
Lemma servedb_ok e t : servedb e t = true -> served e t.
Proof.
  destruct t as [[o v] l]. destruct e; cbn [servedb]; try discriminate; destruct o; try discriminate; intro Q.
  - apply Z.eqb_eq in Q. subst. constructor.
  - apply par_eqb_eq in Q. subst. constructor.
  - apply Z.eqb_eq in Q. subst. constructor.
  - apply zlist_eqb_eq in Q. subst. constructor.
  - apply andb_prop in Q as [Q Q3]. apply andb_prop in Q as [Q1 Q2]. apply Z.eqb_eq in Q1, Q2, Q3. subst. constructor.
  - destruct v; try discriminate. apply andb_prop in Q as [Q1 Q2]. apply Z.eqb_eq in Q1. apply rx_eqb_eq in Q2. subst. constructor.
  - constructor.
  - destruct v; try discriminate. apply Z.eqb_eq in Q. subst. constructor.
  - destruct non_null; [constructor|discriminate].
Qed.
Fixpoint forall2b {A B} (f : A -> B -> bool) (a : list A) (b : list B) : bool :=
  match a, b with [], [] => true | x :: a', y :: b' => f x y && forall2b f a' b' | _, _ => false end.
Lemma forall2b_served a : forall b, forall2b servedb a b = true -> Forall2 served a b.
Proof. induction a as [|x a IH]; intros [|y b] Q; try discriminate; constructor; cbn in Q; apply andb_prop in Q as [Q1 Q2]; [apply servedb_ok, Q1|apply IH, Q2]. Qed.
Definition drivesb (es : list ev) (dtr : list rentry) : bool :=
  match dtr with
  | (PInit hal d, RvBool true, _) :: dtr' => rop_wfb (PInit hal d) && forall2b servedb (filter asks_radio es) (filter (fun t => negb (beside (fst (fst t)))) dtr')
  | _ => false
  end.
Lemma drivesb_ok es dtr : drivesb es dtr = true -> drives es dtr.
Proof.
  destruct dtr as [|[[o v] l] dtr']; [discriminate|]. destruct o; try discriminate. destruct v as [|[|]| |]; try discriminate. cbn [drivesb]. intro Q. apply andb_prop in Q as [Q1 Q2].
  exists hal, opts, l, dtr'. split; [reflexivity|]. split; [apply rop_wfb_ok, Q1|apply forall2b_served, Q2].
Qed.
(** the driver's calls: an interrupt after each of the stack's *)
Definition mixed (es : list ev) : list rop := flat_map (fun e => match call_for e with [] => [] | l => l ++ [PIrq] end) es.
Definition together {S} (call : rop -> M S hev rval) (s0 : S) (d : Sx126x.sx126x_opts) (E : env) (ops : list op) (P : list entry -> list rentry -> list item -> bool) : bool :=
  forallb op_wfb ops &&
  match run E world0 ops with
  | Some (tr, w) =>
      match go call [] s0 (PInit hal_full d :: mixed (all_evs tr)) with
      | Some (dtr, h, s) => drivesb (all_evs tr) dtr && match transcript h with Some hi => P tr dtr hi | None => false end
      | None => false
      end
  | None => false
  end.
Lemma together_ok {S} (call : rop -> M S hev rval) s0 d E ops P : together call s0 d E ops P = true ->
  exists tr w dtr h s hi, Forall op_wf ops /\ exec E world0 ops tr w /\ drives (all_evs tr) dtr /\ rexec call [] s0 dtr h s /\ transcript h = Some hi /\ P tr dtr hi = true.
Proof.
  unfold together. intro Q. apply andb_prop in Q as [Qw Q]. destruct (run E world0 ops) as [[tr w]|] eqn:Er; [|discriminate].
  destruct (go call [] s0 (PInit hal_full d :: mixed (all_evs tr))) as [[[dtr h] s]|] eqn:Eg; [|discriminate]. apply andb_prop in Q as [Qd Q]. destruct (transcript h) as [hi|] eqn:Et; [|discriminate].
  exists tr, w, dtr, h, s, hi. split; [apply Forall_forall; intros o Ho; rewrite forallb_forall in Qw; apply op_wfb_ok, Qw, Ho|]. split; [apply run_exec, Er|]. split; [apply drivesb_ok, Qd|]. split; [apply (go_rexec _ _ _ _ _ _ _ Eg)|]. auto.
Qed.
(** an uplink, nothing in RX1, a packet in RX2 *)
Definition day : list op := [OSend 1 [1; 2; 3] false; OIrq 4; OTimer TIMER_RX1; OIrq 1; OTimer TIMER_RX2; OIrq 2].
