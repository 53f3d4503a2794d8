(** Demo.v -- a concrete environment and concrete executions, used by the
    examples that show the theorems' hypotheses can be met. *)
From Verif Require Export SpecApi.

(** toy primitives: an invertible "AES" and a "CMAC" that mixes every byte *)
Definition byte_of (l : list Z) (i : nat) : Z := nth i l 0.
Definition toy_aes (k b : list Z) : list Z :=
  map (fun i => (byte_of b i + byte_of k i + 17 * Z.of_nat i + 3) mod 256) (seq 0 16).
Definition toy_dec (k b : list Z) : list Z :=
  map (fun i => (byte_of b i - byte_of k i - 17 * Z.of_nat i - 3) mod 256) (seq 0 16).
Definition toy_mix (l : list Z) : Z := fold_left (fun a x => (a * 31 + x + 7) mod 4294967291) l 12345.
Definition toy_cmac (k m : list Z) : list Z :=
  map (fun i => (toy_mix (k ++ m) / 2 ^ (2 * Z.of_nat i)) mod 256) (seq 0 16).

Fixpoint count (p : ev -> bool) (h : list ev) : nat :=
  match h with [] => O | e :: h' => if p e then S (count p h') else count p h' end.
Definition is_lrand (e : ev) : bool := match e with LRand _ => true | _ => false end.
Definition is_rread (e : ev) : bool := match e with RRead _ => true | _ => false end.

(** [rands]: successive results of rand(); [pkts]: successive received
    packets with their SNR *)
Definition demo (rands : list Z) (pkts : list (list Z * Z)) : env := Mk_env
  toy_aes toy_cmac
  (fun h => nth (count is_lrand h) rands 0 mod 2147483648)
  (fun _ => 305419896)
  (fun h => let '(d, snr) := nth (count is_rread h) pkts ([], 0) in
            Mk_rxpkt (firstn 255 (map (fun b => b mod 256) d)) (-80) ((snr + 128) mod 256 - 128))
  (fun _ => 200)
  (fun h => 1600000000 + Z.of_nat (length h) mod 1000)
  (fun h => 1700000000 + Z.of_nat (length h) mod 1000)
  false.

Lemma mod_byte x : is_byte (x mod 256).
Proof. apply Z.mod_pos_bound. lia. Qed.
Lemma map_bytes {A} (f : A -> Z) l : (forall x, is_byte (f x)) -> bytes_ok (map f l).
Proof. intro H. induction l; constructor; auto. Qed.

Lemma demo_ok rands pkts : env_ok (demo rands pkts).
Proof.
  constructor; intros; cbn [demo e_aes e_cmac e_rand e_radio_rand e_pkt e_battery e_devtime e_unixtime]; try lia.
  - reflexivity.
  - apply map_bytes. intro. apply mod_byte.
  - reflexivity.
  - apply map_bytes. intro. apply mod_byte.
  - apply Z.mod_pos_bound. lia.
  - destruct (nth _ _ _) as [d snr]. cbn [rx_data]. rewrite firstn_length. lia.
  - destruct (nth _ _ _) as [d snr]. cbn [rx_data].
    assert (H : bytes_ok (map (fun b => b mod 256) d)) by (apply map_bytes; intro; apply mod_byte).
    unfold bytes_ok in *. rewrite Forall_forall in *. intros x Hx. apply H.
    rewrite <- (firstn_skipn 255). apply in_or_app. left. exact Hx.
  - destruct (nth _ _ _) as [d snr]. cbn [rx_snr]. pose proof (Z.mod_pos_bound (snr + 128) 256). lia.
  - destruct (nth _ _ _) as [d snr]. cbn [rx_rssi]. lia.
  - pose proof (Z.mod_pos_bound (Z.of_nat (length h)) 1000). lia.
  - pose proof (Z.mod_pos_bound (Z.of_nat (length h)) 1000). lia.
Qed.
Definition demo_strict (rands : list Z) (pkts : list (list Z * Z)) : env :=
  let E := demo rands pkts in
  Mk_env (e_aes E) (e_cmac E) (e_rand E) (e_radio_rand E) (e_pkt E) (e_battery E) (e_devtime E) (e_unixtime E) true.
Lemma demo_strict_ok rands pkts : env_ok (demo_strict rands pkts).
Proof. destruct (demo_ok rands pkts). constructor; assumption. Qed.

(** running a list of calls *)
Fixpoint run (E : env) (w : world) (ops : list op) : option (list entry * world) :=
  match ops with
  | [] => Some ([], w)
  | o :: ops' =>
      match step E w o with
      | None => None
      | Some (v, es, w1) =>
          match run E w1 ops' with
          | None => None
          | Some (tr, w2) => Some ((o, v, es) :: tr, w2)
          end
      end
  end.
Lemma run_exec E ops : forall w tr w', run E w ops = Some (tr, w') -> exec E w ops tr w'.
Proof.
  induction ops as [|o ops IH]; intros w tr w'; cbn [run].
  - intro H. injection H as <- <-. apply exec_nil.
  - destruct (step E w o) as [[[v es] w1]|] eqn:Es; [|discriminate].
    destruct (run E w1 ops) as [[tr1 w2]|] eqn:Er; [|discriminate].
    intro H. injection H as <- <-. eapply exec_cons; [exact Es|]. apply IH. exact Er.
Qed.

Definition byteb (x : Z) : bool := (0 <=? x) && (x <? 256).
Definition u32b (x : Z) : bool := (0 <=? x) && (x <? 4294967296).
Definition listb (n : nat) (l : list Z) : bool := (length l =? n)%nat && forallb byteb l.
Definition op_wfb (o : op) : bool :=
  match o with
  | OSetOtaa d a k => listb 8 d && listb 8 a && listb 16 k
  | OSetSession a u d n p => u32b a && u32b u && u32b d && listb 16 n && listb 16 p
  | OEnableChannel i _ => byteb i
  | OSetChannel i f => byteb i && u32b f
  | OSetRx2 f d => u32b f && byteb d
  | OSend p d _ => byteb p && (length d <=? 255)%nat && forallb byteb d
  | OSetDr d => byteb d
  | OSetNb n => byteb n
  | OSetEirp e => (-128 <=? e) && (e <? 128)
  | OSetTxp p => byteb p
  | OSetRx1Off o => byteb o
  | OSetRx1Delay d => byteb d
  | OAdrSetup l d => byteb l && byteb d
  | OIrq m => byteb m
  | OCsHandle _ b s p =>
      byteb s && byteb p && match b with None => s =? 0 | Some l => forallb byteb l && (s <=? len l) end
  | _ => true
  end.
Lemma forallb_bytes l : forallb byteb l = true -> bytes_ok l.
Proof.
  intro H. rewrite forallb_forall in H. apply Forall_forall. intros x Hx. apply H in Hx.
  unfold byteb in Hx. unfold is_byte. lia.
Qed.
Lemma listb_ok n l : listb n l = true -> length l = n /\ bytes_ok l.
Proof.
  unfold listb. intro H. apply andb_prop in H. destruct H as [H1 H2]. apply Nat.eqb_eq in H1.
  split; [exact H1|]. apply forallb_bytes. exact H2.
Qed.
Lemma op_wfb_ok o : op_wfb o = true -> op_wf o.
Proof.
  destruct o; cbn [op_wfb op_wf]; unfold byteb, u32b, is_u8, is_u32, key16, eui8; intro H;
    repeat match goal with H : _ && _ = true |- _ => apply andb_prop in H; destruct H end;
    repeat match goal with H : listb _ _ = true |- _ => apply listb_ok in H; destruct H end;
    repeat split; try assumption; try lia;
    try (apply forallb_bytes; assumption).
  - apply Nat.leb_le. assumption.
  - destruct buf as [l|]; [|lia]. match goal with H : _ && _ = true |- _ => apply andb_prop in H; destruct H end.
    split; [apply forallb_bytes; assumption|lia].
Qed.

(** the world after a list of calls from power-on *)
Definition runs (E : env) (ops : list op) : bool := match run E world0 ops with Some _ => true | None => false end.
Definition after (E : env) (ops : list op) : world :=
  match run E world0 ops with Some (_, w) => w | None => world0 end.
Lemma after_reach E ops : forallb op_wfb ops && runs E ops = true -> reachable E (after E ops).
Proof.
  intro H. apply andb_prop in H. destruct H as [H1 H2]. unfold runs, after in *.
  destruct (run E world0 ops) as [[tr w]|] eqn:Er; [|discriminate].
  exists ops, tr. split; [|apply run_exec; exact Er].
  apply Forall_forall. intros o Ho. apply op_wfb_ok. rewrite forallb_forall in H1. apply H1. exact Ho.
Qed.

Definition err_eq_dec (a b : err) : {a = b} + {a <> b}.
Proof. decide equality. Defined.

(** a session by personalisation, ready to send *)
Definition k1 : list Z := [1; 2; 3; 4; 5; 6; 7; 8; 9; 10; 11; 12; 13; 14; 15; 16].
Definition k2 : list Z := [201; 202; 203; 204; 205; 206; 207; 208; 209; 210; 211; 212; 213; 214; 215; 216].
Definition k3 : list Z := [33; 44; 55; 66; 77; 88; 99; 110; 121; 132; 143; 154; 165; 176; 187; 198].
Definition eui1 : list Z := [1; 35; 69; 103; 137; 171; 205; 239].
Definition eui2 : list Z := [254; 220; 186; 152; 118; 84; 50; 16].
Definition abp (up down : Z) : list op := [OInit EU868; OSetSession 637603841 up down k1 k2].
Definition otaa (r : region) : list op := [OInit r; OSetOtaa eui1 eui2 k3].

(** [case_of E ops o P]: after the calls [ops] the call [o] returns, and [P]
    holds of the world before, the result, the events and the world after. All
    hypotheses common to the property theorems are met. *)
Definition case_of (E : env) (ops : list op) (o : op) (P : world -> val -> list ev -> world -> bool) : Prop :=
  exists v es w', env_ok E /\ reachable E (after E ops) /\ op_wf o /\
    step E (after E ops) o = Some (v, es, w') /\ P (after E ops) v es w' = true.
Definition caseb (E : env) (ops : list op) (o : op) (P : world -> val -> list ev -> world -> bool) : bool :=
  forallb op_wfb ops && runs E ops && op_wfb o &&
  match step E (after E ops) o with Some (v, es, w') => P (after E ops) v es w' | None => false end.
Lemma case_intro E ops o P : env_ok E -> caseb E ops o P = true -> case_of E ops o P.
Proof.
  intros HE H. unfold caseb in H. apply andb_prop in H. destruct H as [H H3]. apply andb_prop in H. destruct H as [H1 H2].
  destruct (step E (after E ops) o) as [[[v es] w']|] eqn:Es; [|discriminate].
  exists v, es, w'. split; [exact HE|]. split; [apply after_reach; exact H1|]. split; [apply op_wfb_ok; exact H2|]. auto.
Qed.
Ltac show_case := apply case_intro; [apply demo_ok|vm_compute; reflexivity].
(** the same for a whole execution *)
Definition run_of (E : env) (ops ops' : list op) (P : world -> list entry -> world -> bool) : Prop :=
  exists tr w', env_ok E /\ reachable E (after E ops) /\ Forall op_wf ops' /\
    exec E (after E ops) ops' tr w' /\ P (after E ops) tr w' = true.
Definition runb (E : env) (ops ops' : list op) (P : world -> list entry -> world -> bool) : bool :=
  forallb op_wfb ops && runs E ops && forallb op_wfb ops' &&
  match run E (after E ops) ops' with Some (tr, w') => P (after E ops) tr w' | None => false end.
Lemma run_intro E ops ops' P : env_ok E -> runb E ops ops' P = true -> run_of E ops ops' P.
Proof.
  intros HE H. unfold runb in H. apply andb_prop in H. destruct H as [H H3]. apply andb_prop in H. destruct H as [H1 H2].
  destruct (run E (after E ops) ops') as [[tr w']|] eqn:Es; [|discriminate].
  exists tr, w'. split; [exact HE|]. split; [apply after_reach; exact H1|].
  split; [|split; [apply run_exec; exact Es|exact H3]].
  apply Forall_forall. intros x Hx. apply op_wfb_ok. rewrite forallb_forall in H2. apply H2. exact Hx.
Qed.
Ltac show_run := apply run_intro; [apply demo_ok|vm_compute; reflexivity].

Definition err_eqb (a b : err) : bool := if err_eq_dec a b then true else false.
Definition returns (e : err) (v : val) : bool := match v with VErr x => err_eqb e x | _ => false end.
Definition is_nil {A} (l : list A) : bool := match l with [] => true | _ => false end.

(** a counterexample found by running *)
Lemma refute (Q : env -> world -> op -> val -> list ev -> world -> Prop) E ops o P :
  env_ok E -> caseb E ops o P = true ->
  (forall w v es w', P w v es w' = true -> Q E w o v es w') ->
  exists E w o v es w', env_ok E /\ reachable E w /\ op_wf o /\ step E w o = Some (v, es, w') /\ Q E w o v es w'.
Proof.
  intros HE Hc Hp. destruct (case_intro E ops o P HE Hc) as (v & es & w' & A & B & C & D & F).
  exists E, (after E ops), o, v, es, w'. split; [exact A|]. split; [exact B|]. split; [exact C|]. split; [exact D|].
  apply Hp. exact F.
Qed.
Lemma refute_run (Q : env -> world -> list op -> list entry -> world -> Prop) E ops ops' P :
  env_ok E -> runb E ops ops' P = true ->
  (forall w tr w', P w tr w' = true -> Q E w ops' tr w') ->
  exists E w ops' tr w', env_ok E /\ reachable E w /\ Forall op_wf ops' /\ exec E w ops' tr w' /\ Q E w ops' tr w'.
Proof.
  intros HE Hc Hp. destruct (run_intro E ops ops' P HE Hc) as (tr & w' & A & B & C & D & F).
  exists E, (after E ops), ops', tr, w'. split; [exact A|]. split; [exact B|]. split; [exact C|]. split; [exact D|].
  apply Hp. exact F.
Qed.
Lemma list_eqb_eq a b : list_eqb a b = true -> a = b.
Proof. unfold list_eqb. destruct (list_eq_dec Z.eq_dec a b); [auto|discriminate]. Qed.
