(** LSplit.v -- statements and interrupts that touch different parts of the state (for C99) *)
From Verif Require Import SpecIsr LIsr LReent PUp PIrq PStrict Preempt2.
Open Scope m_scope.

Section Split.
Context {X : Type} (get : st -> X) (put : X -> st -> st) (P : st -> Prop).
Context (get_put : forall x s, get (put x s) = x) (put_put : forall x y s, put x (put y s) = put x s) (put_get : forall s, put (get s) s = s) (P_put : forall x s, P s -> P (put x s)).

(** works on this part alone, without external calls *)
Definition loc {A} (m : C A) : Prop := forall h s,
  match m h s with
  | Ok (a, s', es) => es = [] /\ s' = put (get s') s /\ forall h2 s2, get s2 = get s -> m h2 s2 = Ok (a, put (get s') s2, [])
  | Undef _ => forall h2 s2, get s2 = get s -> exists k, m h2 s2 = Undef k
  end.
(** leaves this part alone and does not look at it *)
Definition ind {A} (m : C A) : Prop := forall h s, P s ->
  match m h s with
  | Ok (a, s', es) => P s' /\ get s' = get s /\ forall x, m h (put x s) = Ok (a, put x s', es)
  | Undef _ => forall x, exists k, m h (put x s) = Undef k
  end.
Definition eqv {A} (m m' : C A) : Prop := forall h s, P s -> forall r, m h s = Ok r <-> m' h s = Ok r.
Lemma eqv_refl {A} (m : C A) : eqv m m. Proof. intros h s _ r. reflexivity. Qed.
Lemma eqv_trans {A} (a b c : C A) : eqv a b -> eqv b c -> eqv a c.
Proof. intros H K h s p r. etransitivity; [apply H; exact p|apply K; exact p]. Qed.

Lemma loc_ret {A} (a : A) : loc (ret a).
Proof. intros h s. cbn. split; [reflexivity|]. split; [symmetry; apply put_get|]. intros h2 s2 Q. rewrite <- Q, put_get. reflexivity. Qed.
Lemma loc_fail {A} k : loc (@fail st ev A k).
Proof. intros h s. cbn. intros h2 s2 _. exists k. reflexivity. Qed.
Lemma loc_gets {A} (f : st -> A) : (forall s s2, get s2 = get s -> f s2 = f s) -> loc (gets f).
Proof. intros H h s. cbn. split; [reflexivity|]. split; [symmetry; apply put_get|]. intros h2 s2 Q. unfold gets. rewrite (H s s2 Q), <- Q, put_get. reflexivity. Qed.
Lemma loc_modify f : (forall s s2, get s2 = get s -> f s2 = put (get (f s)) s2) -> loc (modify f).
Proof. intros H h s. cbn. split; [reflexivity|]. split; [apply (H s s eq_refl)|]. intros h2 s2 Q. unfold modify. rewrite (H s s2 Q). reflexivity. Qed.
Lemma loc_bind {A B} (m : C A) (f : A -> C B) : loc m -> (forall a, loc (f a)) -> loc (bind m f).
Proof.
  intros Hm Hf h s. unfold bind. specialize (Hm h s). destruct (m h s) as [[[a s1] e1]|].
  - destruct Hm as (-> & M1 & M2). specialize (Hf a (h ++ []) s1). destruct (f a (h ++ []) s1) as [[[b s2] e2]|].
    + destruct Hf as (-> & F1 & F2). split; [reflexivity|]. split; [rewrite F1 at 1; rewrite M1; apply put_put|].
      intros h2 t Q. rewrite (M2 h2 t Q), (F2 (h2 ++ []) (put (get s1) t) (get_put _ _)), put_put. reflexivity.
    + intros h2 t Q. rewrite (M2 h2 t Q). destruct (Hf (h2 ++ []) (put (get s1) t) (get_put _ _)) as (k9 & ->). eauto.
  - intros h2 t Q. destruct (Hm h2 t Q) as (k9 & ->). eauto.
Qed.

Lemma ind_ret {A} (a : A) : ind (ret a). Proof. intros h s p. cbn. auto. Qed.
Lemma ind_fail {A} k : ind (@fail st ev A k). Proof. intros h s p. cbn. intro. exists k. reflexivity. Qed.
Lemma ind_emit e : ind (emit e). Proof. intros h s p. cbn. auto. Qed.
Lemma ind_query {A} (o : list ev -> A) k : ind (query o k). Proof. intros h s p. cbn. auto. Qed.
Lemma ind_gets {A} (f : st -> A) : (forall x s, f (put x s) = f s) -> ind (gets f).
Proof. intros H h s p. cbn. split; [exact p|]. split; [reflexivity|]. intro x. unfold gets. rewrite H. reflexivity. Qed.
Lemma ind_modify f : (forall s, P s -> P (f s)) -> (forall s, get (f s) = get s) -> (forall x s, f (put x s) = put x (f s)) -> ind (modify f).
Proof. intros H1 H2 H3 h s p. cbn. split; [auto|]. split; [auto|]. intro x. unfold modify. rewrite H3. reflexivity. Qed.
Lemma ind_bind {A B} (m : C A) (f : A -> C B) : ind m -> (forall a, ind (f a)) -> ind (bind m f).
Proof.
  intros Hm Hf h s p. unfold bind. specialize (Hm h s p). destruct (m h s) as [[[a s1] e1]|].
  - destruct Hm as (p1 & M1 & M2). specialize (Hf a (h ++ e1) s1 p1). destruct (f a (h ++ e1) s1) as [[[b s2] e2]|].
    + destruct Hf as (p2 & F1 & F2). split; [exact p2|]. split; [congruence|]. intro x. rewrite M2, F2. reflexivity.
    + intro x. rewrite M2. destruct (Hf x) as (k9 & ->). eauto.
  - intro x. destruct (Hm x) as (k9 & ->). eauto.
Qed.

Lemma loc_P {A} (m : C A) h s a s' es : loc m -> P s -> m h s = Ok (a, s', es) -> P s'.
Proof. intros L p Q. specialize (L h s). rewrite Q in L. destruct L as (_ & -> & _). apply P_put. exact p. Qed.
Lemma eqv_loc {A B} (m : C A) (f g : A -> C B) : loc m -> (forall a, eqv (f a) (g a)) -> eqv (bind m f) (bind m g).
Proof.
  intros L H h s p r. unfold bind. destruct (m h s) as [[[a s1] e1]|] eqn:Q; [|reflexivity]. pose proof (loc_P m h s a s1 e1 L p Q) as p1. specialize (H a (h ++ e1) s1 p1).
  destruct (f a (h ++ e1) s1) as [[[b s2] e2]|] eqn:F, (g a (h ++ e1) s1) as [[[b' s2'] e2']|] eqn:G; try reflexivity.
  - assert (K : Ok (b', s2', e2') = Ok (b, s2, e2)) by (apply (proj1 (H (b, s2, e2))); reflexivity). injection K as -> -> ->. reflexivity.
  - pose proof (proj1 (H (b, s2, e2)) eq_refl) as K. discriminate K.
  - pose proof (proj2 (H (b', s2', e2')) eq_refl) as K. discriminate K.
  - split; discriminate.
Qed.
Lemma eqv_ind {A B} (m : C A) (f g : A -> C B) : ind m -> (forall a, eqv (f a) (g a)) -> eqv (bind m f) (bind m g).
Proof.
  intros L H h s p r. unfold bind. specialize (L h s p). destruct (m h s) as [[[a s1] e1]|] eqn:Q; [|reflexivity]. destruct L as (p1 & _). specialize (H a (h ++ e1) s1 p1).
  destruct (f a (h ++ e1) s1) as [[[b s2] e2]|] eqn:F, (g a (h ++ e1) s1) as [[[b' s2'] e2']|] eqn:G; try reflexivity.
  - assert (K : Ok (b', s2', e2') = Ok (b, s2, e2)) by (apply (proj1 (H (b, s2, e2))); reflexivity). injection K as -> -> ->. reflexivity.
  - pose proof (proj1 (H (b, s2, e2)) eq_refl) as K. discriminate K.
  - pose proof (proj2 (H (b', s2', e2')) eq_refl) as K. discriminate K.
  - split; discriminate.
Qed.
(** they can be exchanged *)
Lemma swap {A B} (c : C unit) (m : C A) (k : A -> C B) : ind c -> loc m -> eqv (c ;;; bind m k) (bind m (fun a => c ;;; k a)).
Proof.
  intros Hc Hm h s p r. unfold bind. specialize (Hc h s p). destruct (c h s) as [[[[] s1] e1]|] eqn:Ec.
  - destruct Hc as (p1 & G & Hx). pose proof (Hm h s) as L. destruct (m h s) as [[[a s2] e2]|] eqn:Em.
    + destruct L as (-> & L1 & L2). rewrite (L2 (h ++ e1) s1 G). rewrite L1. rewrite !app_nil_r, (Hx (get s2)).
      cbn [app]. rewrite get_put. destruct (k a (h ++ e1) (put (get s2) s1)) as [[[b s3] e3]|]; reflexivity.
    + destruct (L (h ++ e1) s1 G) as (k9 & ->). split; discriminate.
  - pose proof (Hm h s) as L. destruct (m h s) as [[[a s2] e2]|] eqn:Em; [|split; discriminate].
    destruct L as (-> & L1 & L2). rewrite L1. destruct (Hc (get s2)) as (k' & Hk). rewrite app_nil_r, Hk. split; discriminate.
Qed.
End Split.
