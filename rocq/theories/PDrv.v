(** PDrv.v -- symbolic execution of the drivers: every call is a list of complete
    SPI transactions and other HAL calls. *)
From Verif Require Export SpecRadio Drv.
From Verif Require Sx126x Sx127x.

(** the events of transactions *)
Definition item_evs (i : item) : list hev :=
  match i with Tr x => HSelect true :: map (fun p => HXfer (fst p) (snd p)) x ++ [HSelect false] | Do e => [e] end.
Definition unparse (its : list item) : list hev := flat_map item_evs its.
Definition quiet (e : hev) : bool := match e with HSelect _ | HXfer _ _ => false | _ => true end.
Definition item_ok (i : item) : Prop := match i with Tr x => x <> [] | Do e => quiet e = true end.

Lemma parse_window b x : forall y rest, parse (Some (b :: y)) (map (fun p => HXfer (fst p) (snd p)) x ++ HSelect false :: rest) =
  option_map (cons (Tr (b :: y ++ x))) (parse None rest).
Proof.
  induction x as [|[o i] x IH]; intros y rest.
  - rewrite app_nil_r. reflexivity.
  - cbn [map app parse fst snd]. rewrite IH, <- app_assoc. reflexivity.
Qed.
Lemma transcript_app its es : Forall item_ok its -> transcript (unparse its ++ es) = option_map (app its) (transcript es).
Proof.
  unfold transcript. induction 1 as [|i its Hi _ IH].
  - cbn. destruct (parse None es); reflexivity.
  - cbn [unparse flat_map]. fold (unparse its). rewrite <- app_assoc. destruct i as [x|e]; cbn [item_evs item_ok] in *.
    + destruct x as [|[o i] x]; [congruence|]. rewrite <- app_comm_cons, <- app_assoc. cbn [map app parse fst snd].
      change ([HSelect false] ++ unparse its ++ es) with (HSelect false :: unparse its ++ es).
      cbn [app]. rewrite parse_window, IH. cbn [app]. destruct (parse None es); reflexivity.
    + cbn [app]. destruct e; try discriminate; cbn [parse]; rewrite IH; destruct (parse None es); reflexivity.
Qed.
Lemma transcript_unparse its : Forall item_ok its -> transcript (unparse its) = Some its.
Proof. intro H. rewrite <- (app_nil_r (unparse its)), transcript_app by exact H. cbn. rewrite app_nil_r. reflexivity. Qed.
Lemma unparse_app a b : unparse (a ++ b) = unparse a ++ unparse b.
Proof. apply flat_map_app. Qed.

Section Wp.
  Context {S : Type}.
  Definition wp {A} (m : M S hev A) (h : list item) (s : S) (Q : A -> S -> list item -> Prop) : Prop :=
    exists v s' its, m (unparse h) s = Ok (v, s', unparse its) /\ Forall item_ok its /\ Q v s' its.
  Lemma wp_ret {A} (a : A) h s (Q : A -> S -> list item -> Prop) : Q a s [] -> wp (ret a) h s Q.
  Proof. intro H. exists a, s, []. repeat split; auto. Qed.
  Lemma wp_bind {A B} (m : M S hev A) (f : A -> M S hev B) h s Q :
    wp m h s (fun a s1 i1 => wp (f a) (h ++ i1) s1 (fun b s2 i2 => Q b s2 (i1 ++ i2))) -> wp (bind m f) h s Q.
  Proof.
    intros (a & s1 & i1 & H1 & O1 & b & s2 & i2 & H2 & O2 & HQ). exists b, s2, (i1 ++ i2). split.
    - unfold bind. rewrite H1, <- unparse_app, H2, <- unparse_app. reflexivity.
    - split; [apply Forall_app; auto|exact HQ].
  Qed.
  Lemma wp_weaken {A} (m : M S hev A) h s (Q Q' : A -> S -> list item -> Prop) :
    wp m h s Q -> (forall a s1 i, Q a s1 i -> Q' a s1 i) -> wp m h s Q'.
  Proof. intros (v & s' & its & H & O & HQ) HW. exists v, s', its. auto. Qed.
  Lemma wp_emit e h s (Q : unit -> S -> list item -> Prop) : quiet e = true -> Q tt s [Do e] -> wp (emit e) h s Q.
  Proof. intros Hq H. exists tt, s, [Do e]. repeat split; auto. Qed.
  Lemma wp_gets {A} (f : S -> A) h s (Q : A -> S -> list item -> Prop) : Q (f s) s [] -> wp (gets f) h s Q.
  Proof. intro H. exists (f s), s, []. repeat split; auto. Qed.
  Lemma wp_modify (f : S -> S) h s (Q : unit -> S -> list item -> Prop) : Q tt (f s) [] -> wp (modify f) h s Q.
  Proof. intro H. exists tt, (f s), []. repeat split; auto. Qed.
  Lemma wp_when (b : bool) e h s (Q : unit -> S -> list item -> Prop) :
    quiet e = true -> Q tt s (if b then [Do e] else []) -> wp (when b (emit e)) h s Q.
  Proof. intros Hq H. destruct b; [apply wp_emit|apply wp_ret]; auto. Qed.
  Lemma wp_get {A} (l : list A) i v h s (Q : A -> S -> list item -> Prop) : peek l i = Some v -> Q v s [] -> wp (arr_get l i) h s Q.
  Proof. intros Hp H. unfold arr_get. rewrite Hp. apply wp_ret. exact H. Qed.
  (** from the triple to the run *)
  Lemma wp_run {A} (m : M S hev A) h s Q v s' es :
    wp m h s Q -> m (unparse h) s = Ok (v, s', es) -> exists its, es = unparse its /\ Forall item_ok its /\ transcript es = Some its /\ Q v s' its.
  Proof.
    intros (v1 & s1 & its & H & O & HQ) H2. rewrite H in H2. injection H2 as <- <- <-. exists its. repeat split; auto. apply transcript_unparse. exact O.
  Qed.
  Lemma wp_def {A} (m : M S hev A) h s Q : wp m h s Q -> exists r, m (unparse h) s = Ok r.
  Proof. intros (v & s' & its & H & _). eauto. Qed.

  (** bytes on the bus *)
  Lemma xfer_out_run H bs : forall (h : list hev) (s : S), exists rs, length rs = length bs /\
    xfer_out H bs h s = Ok (tt, s, map (fun p => HXfer (fst p) (snd p)) (combine bs rs)).
  Proof.
    induction bs as [|b bs IH]; intros h s.
    - exists []. split; reflexivity.
    - cbn [xfer_out]. unfold xfer, query, bind. destruct (IH (h ++ [HXfer b (h_xfer H h b)]) s) as (rs & L & E). rewrite E.
      exists (h_xfer H h b :: rs). cbn [length combine map fst snd]. split; [congruence|reflexivity].
  Qed.
  Lemma xfer_in_run H f : henv_ok H -> forall n (h : list hev) (s : S), exists rs, length rs = n /\ bytes_ok rs /\
    xfer_in H f n h s = Ok (rs, s, map (fun p => HXfer (fst p) (snd p)) (combine (repeat f n) rs)).
  Proof.
    intro HH. induction n as [|n IH]; intros h s.
    - exists []. repeat split. constructor.
    - cbn [xfer_in]. unfold xfer, query, bind. destruct (IH (h ++ [HXfer f (h_xfer H h f)]) s) as (rs & L & B & E). rewrite E.
      exists (h_xfer H h f :: rs). cbn [length repeat combine map fst snd app]. split; [congruence|]. split; [constructor; [apply HH|exact B]|]. unfold ret. rewrite app_nil_r. reflexivity.
  Qed.
End Wp.
Lemma mosi_combine a : forall b, length b = length a -> mosi (combine a b) = a.
Proof. induction a as [|x a IH]; intros [|y b] H; try discriminate; [reflexivity|]. cbn in *. f_equal. apply IH. lia. Qed.
Lemma miso_combine a : forall b, length b = length a -> miso (combine a b) = b.
Proof. induction a as [|x a IH]; intros [|y b] H; try discriminate; [reflexivity|]. cbn in *. f_equal. apply IH. lia. Qed.
Lemma item_tr x : x <> [] -> item_ok (Tr x). Proof. auto. Qed.

(** chip state over appended traffic *)
Lemma chip127_app c a b : chip127 c (a ++ b) = chip127 (chip127 c a) b. Proof. apply fold_left_app. Qed.
Lemma chip126_app c a b : chip126 c (a ++ b) = chip126 (chip126 c a) b. Proof. apply fold_left_app. Qed.
Lemma pw_app a : forall p b, pw_run p (a ++ b) = match pw_run p a with Some q => pw_run q b | None => None end.
Proof. induction a as [|i a IH]; intros p b; [reflexivity|]. cbn [app pw_run]. destruct (pw_see p i); [apply IH|reflexivity]. Qed.
Lemma rs_app a : forall p b, rs_run p (a ++ b) = match rs_run p a with Some q => rs_run q b | None => None end.
Proof. induction a as [|i a IH]; intros p b; [reflexivity|]. cbn [app rs_run]. destruct (rs_see p i); [apply IH|reflexivity]. Qed.
Lemma bind_assoc {S E A B C} (m : M S E A) (f : A -> M S E B) (g : B -> M S E C) h s : bind (bind m f) g h s = bind m (fun a => bind (f a) g) h s.
Proof.
  unfold bind. destruct (m h s) as [[[a s1] e1]|]; [|reflexivity]. destruct (f a (h ++ e1) s1) as [[[b s2] e2]|]; [|reflexivity].
  rewrite app_assoc. destruct (g b ((h ++ e1) ++ e2) s2) as [[[c s3] e3]|]; [|reflexivity]. rewrite app_assoc. reflexivity.
Qed.
Lemma bind_ext {S E A B} (m : M S E A) (f g : A -> M S E B) h s : (forall a h s, f a h s = g a h s) -> bind m f h s = bind m g h s.
Proof. intro X. unfold bind. destruct (m h s) as [[[a s1] e1]|]; [|reflexivity]. rewrite X. reflexivity. Qed.
Lemma bind_ret_l {S E A B} (a : A) (f : A -> M S E B) h s : bind (ret a) f h s = f a h s.
Proof. unfold bind, ret. rewrite app_nil_r. destruct (f a h s) as [[[b s2] e2]|]; reflexivity. Qed.
Lemma bind_tt {S E} (m : M S E unit) h s : bind m (fun _ => ret tt) h s = m h s.
Proof. unfold bind, ret. destruct (m h s) as [[[[] s2] e2]|]; [rewrite app_nil_r|]; reflexivity. Qed.
Lemma wp_ext {S A} (m m' : M S hev A) h s Q : (forall h s, m h s = m' h s) -> wp m h s Q -> wp m' h s Q.
Proof. intros X (v & s' & its & E & R). exists v, s', its. rewrite <- X. auto. Qed.
