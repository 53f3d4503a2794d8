(** Prop_Hide.v -- C102: the keys matter only through the crypto functions *)
From Verif Require Import SpecHide2 LHide SpecJoin Prop_Join Demo.

(** Two runs that differ only in the keys, with crypto functions that treat the different
    keys alike, look the same: the second run is defined, returns the same results, makes
    the same external calls in the same order (frames, frequencies, timers, callbacks) and
    leaves the device remembering the same besides the keys. *)
Theorem C102_keys_hidden E aes cmac ak sk ops ops' tr w :
  keyblind E -> pairing E aes cmac ak sk -> exec E world0 ops tr w -> Forall2 (same_call ak sk) ops ops' ->
  exists tr' w', exec (with_crypto aes cmac E) world0 ops' tr' w' /\ Forall2 same_seen tr tr' /\ keyless w' = keyless w.
Proof.
  intros HB HP X F. destruct (h_exec E aes cmac ak sk HB HP world0 ops tr w X world0 ops' F eq_refl (sim0 E aes cmac ak sk HP)) as (tr' & w' & A & B & (n & p & k & D & _)).
  exists tr', w'. split; [exact A|]. split; [exact B|]. unfold keyless. rewrite D. reflexivity.
Qed.
Print Assumptions C102_keys_hidden.

(** The same for executions in which interrupts strike inside the calls and the application's
    handlers call the API. *)
Theorem C102_interrupted E aes cmac ak sk js js' tr w :
  keyblind E -> pairing E aes cmac ak sk -> works E world0 js tr w -> Forall2 (same_job ak sk) js js' ->
  exists tr' w', works (with_crypto aes cmac E) world0 js' tr' w' /\ Forall2 same_shown tr tr' /\ keyless w' = keyless w.
Proof.
  intros HB HP X F. destruct (h_works E aes cmac ak sk HB HP world0 js tr w X world0 js' F eq_refl (sim0 E aes cmac ak sk HP)) as (tr' & w' & A & B & (n & p & k & D & _)).
  exists tr', w'. split; [exact A|]. split; [exact B|]. unfold keyless. rewrite D. reflexivity.
Qed.
Print Assumptions C102_interrupted.

(** A device joins with the AppKey [kx] instead of [k3], sends a frame, is given the session
    key [ky] instead of [k1] and sends another. *)
Definition kx : list Z := repeat 90 16.
Definition ky : list Z := repeat 91 16.
Definition meant (k : list Z) : list Z := if list_eqb k kx then k3 else if list_eqb k ky then k1 else k.
Definition ak_demo (k k' : list Z) : Prop := (k = k3 /\ k' = kx) \/ (k = repeat 0 16 /\ k' = k).
Definition sk_demo (k k' : list Z) : Prop := length k = 16%nat /\ length k' = 16%nat /\ meant k' = k.
Definition aes_demo (k : list Z) : list Z -> list Z := toy_aes (meant k).
Definition cmac_demo (k : list Z) : list Z -> list Z := toy_cmac (meant k).
Definition hide_env : env := demo [7; 300] [(ja_demo, 5)].
Definition hide_ops (a n : list Z) : list op :=
  [OInit RU864; OSetOtaa eui1 eui2 a; OJoin; OIrq 4; OTimer TIMER_RX1; OIrq 1; OIrq 2; OSend 7 [1; 2; 3] true; OIrq 4; OTimer TIMER_RX1; OIrq 1; OTimer TIMER_RX2; OIrq 1;
   OSetSession 5 3 9 n k2; OSend 9 [1; 2; 3; 4] false].
Lemma count_hidden p : (forall e, p (hide e) = p e) -> forall h, count p (hidden h) = count p h.
Proof. intros Hp. induction h as [|e h IH]; [reflexivity|]. cbn [hidden map count]. rewrite Hp. fold (hidden h). rewrite IH. reflexivity. Qed.
Lemma demo_keyblind rands pkts : keyblind (demo rands pkts).
Proof.
  assert (L : forall h h', hidden h = hidden h' -> length h = length h') by (intros h h' H; apply (f_equal (@length ev)) in H; unfold hidden in H; rewrite !map_length in H; exact H).
  assert (R : forall p h h', (forall e, p (hide e) = p e) -> hidden h = hidden h' -> count p h = count p h') by (intros p h h' Hp H; rewrite <- (count_hidden p Hp h), <- (count_hidden p Hp h'), H; reflexivity).
  constructor; intros h h' H; cbn [demo e_rand e_radio_rand e_pkt e_battery e_devtime e_unixtime]; try reflexivity.
  - rewrite (R is_lrand h h'); [reflexivity|intros []; reflexivity|exact H].
  - rewrite (R is_rread h h'); [reflexivity|intros []; reflexivity|exact H].
  - rewrite (L _ _ H). reflexivity.
  - rewrite (L _ _ H). reflexivity.
Qed.
Lemma meant_self k : nth 15 k 0 <> 90 -> nth 15 k 0 <> 91 -> meant k = k.
Proof.
  intros A B. unfold meant, list_eqb. destruct (list_eq_dec Z.eq_dec k kx) as [->|_]; [destruct (A eq_refl)|].
  destruct (list_eq_dec Z.eq_dec k ky) as [->|_]; [destruct (B eq_refl)|]. reflexivity.
Qed.
Lemma demo_pairing : pairing hide_env aes_demo cmac_demo ak_demo sk_demo.
Proof.
  constructor.
  - intros k k' [[-> ->]|[-> ->]]; repeat split.
  - intros k k' (A & B & M). unfold aes_demo, cmac_demo. repeat split; try assumption; intros; cbv beta delta [aes_demo cmac_demo]; rewrite M; reflexivity.
  - right. split; reflexivity.
  - repeat split.
  - intros k k' x Hk (t & n & _ & Ln & ->). do 9 (destruct n as [|? n]; try discriminate Ln).
    split; [reflexivity|]. split; [reflexivity|]. apply meant_self; destruct Hk as [[-> _]|[-> _]]; vm_compute; discriminate.
Qed.
Example C102_case : exists tr w, keyblind hide_env /\ pairing hide_env aes_demo cmac_demo ak_demo sk_demo /\ exec hide_env world0 (hide_ops k3 k1) tr w /\
  Forall2 (same_call ak_demo sk_demo) (hide_ops k3 k1) (hide_ops kx ky) /\ length (tx_frames (flat_map snd tr)) = 3%nat /\ is_joined (ses w) = true.
Proof.
  destruct (run hide_env world0 (hide_ops k3 k1)) as [[tr w]|] eqn:R; [|vm_compute in R; discriminate R]. exists tr, w.
  split; [apply demo_keyblind|]. split; [exact demo_pairing|]. split; [apply run_exec, R|]. split.
  { repeat (constructor; [first [apply same_other; exact I | apply same_otaa; left; split; reflexivity | apply same_session; repeat split]|]). constructor. }
  vm_compute in R. injection R as <- <-. split; [vm_compute; reflexivity|]. vm_compute. reflexivity.
Qed.
(** A timer strikes inside uwan_set_otaa_keys and inside uwan_join; the handler of the
    join-accept is told another session key and sends a frame. *)
Definition is_cbdown (e : ev) : bool := match e with CbDown _ _ _ => true | _ => false end.
Definition on_accept (n : list Z) : reaction := fun h => if (count is_cbdown h =? 1)%nat then [OSetSession 5 3 9 n k2; OSend 9 [1; 2] false] else [].
Definition ticks : strikes := fun n => if (n =? 1)%nat then [OTimer TIMER_RX1] else [].
Definition hide_jobs (a n : list Z) : list job :=
  [JCall (OInit RU864); JSetStruck ticks (OSetOtaa eui1 eui2 a); JStruck ticks OJoin; JCall (OIrq 4); JCall (OTimer TIMER_RX1); JReact (on_accept n) 2].
Fixpoint work (E : env) (w : world) (js : list job) : option (list (val * list ev) * world) :=
  match js with
  | [] => Some ([], w)
  | j :: js' => match does E w j with
                | Some (v, es, w1) => match work E w1 js' with Some (tr, w2) => Some ((v, es) :: tr, w2) | None => None end
                | None => None
                end
  end.
Lemma work_works E js : forall w tr w', work E w js = Some (tr, w') -> works E w js tr w'.
Proof.
  induction js as [|j js IH]; intros w tr w'; cbn [work].
  - intro H. injection H as <- <-. constructor.
  - destruct (does E w j) as [[[v es] w1]|] eqn:Es; [|discriminate]. destruct (work E w1 js) as [[tr1 w2]|] eqn:Er; [|discriminate].
    intro H. injection H as <- <-. econstructor; [exact Es|]. apply IH, Er.
Qed.
Example C102_interrupted_case : exists tr w, keyblind hide_env /\ pairing hide_env aes_demo cmac_demo ak_demo sk_demo /\ works hide_env world0 (hide_jobs k3 k1) tr w /\
  Forall2 (same_job ak_demo sk_demo) (hide_jobs k3 k1) (hide_jobs kx ky) /\ length (tx_frames (flat_map snd tr)) = 2%nat /\ dev_addr (ses w) = 5.
Proof.
  destruct (work hide_env world0 (hide_jobs k3 k1)) as [[tr w]|] eqn:R; [|vm_compute in R; discriminate R]. exists tr, w.
  split; [apply demo_keyblind|]. split; [exact demo_pairing|]. split; [apply work_works, R|]. split.
  { assert (T : same_strikes ak_demo sk_demo ticks ticks) by (intros [|[|n]]; repeat constructor).
    assert (A : same_reaction ak_demo sk_demo (on_accept k1) (on_accept ky)).
    { intros h h' H. unfold on_accept. rewrite <- (count_hidden is_cbdown ltac:(intros []; reflexivity) h), <- (count_hidden is_cbdown ltac:(intros []; reflexivity) h'), H.
      destruct (_ =? _)%nat; repeat (constructor; [first [apply same_other; exact I | apply same_session; repeat split]|]); constructor. }
    repeat (constructor; [first [apply same_jcall, same_other; exact I | apply same_set; [exact T|apply same_otaa; left; split; reflexivity] | apply same_struck; [exact T|apply same_other; exact I] | apply same_react, A]|]). constructor. }
  vm_compute in R. injection R as <- <-. split; [vm_compute; reflexivity|]. vm_compute. reflexivity.
Qed.
