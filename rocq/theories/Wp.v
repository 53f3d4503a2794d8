(** Wp.v -- reasoning rules for the effect monad (proof infrastructure). *)
From Verif Require Export Base.
From Coq Require Export ZifyBool.

(** Outcome of [m] from [h], [s]: either undefined behaviour of a kind in [U],
    or a result satisfying [Q]. *)
Definition wpu {S E A} (U : ub -> Prop) (m : M S E A) (h : list E) (s : S)
    (Q : A -> S -> list E -> Prop) : Prop :=
  match m h s with
  | Ok (a, s', es) => Q a s' es
  | Undef k => U k
  end.
(** no undefined behaviour at all *)
Definition noub : ub -> Prop := fun _ => False.
Notation wp := (wpu noub).

Section Rules.
  Context {S E : Type}.
  Implicit Types (h : list E) (s : S) (U : ub -> Prop).

  Lemma wp_conseq {A} U (m : M S E A) h s (Q Q' : A -> S -> list E -> Prop) :
    wpu U m h s Q -> (forall a s' es, Q a s' es -> Q' a s' es) -> wpu U m h s Q'.
  Proof. unfold wpu. destruct (m h s) as [[[a s'] es]|k]; auto. Qed.

  Lemma wp_weaken {A} (U U' : ub -> Prop) (m : M S E A) h s Q :
    wpu U m h s Q -> (forall k, U k -> U' k) -> wpu U' m h s Q.
  Proof. unfold wpu. destruct (m h s) as [[[a s'] es]|k]; auto. Qed.

  Lemma wp_noub {A} U (m : M S E A) h s Q : wpu noub m h s Q -> wpu U m h s Q.
  Proof. intro H. eapply wp_weaken; [exact H|]. intros k []. Qed.

  Lemma wp_ret {A} U (a : A) h s (Q : A -> S -> list E -> Prop) :
    Q a s [] -> wpu U (ret a) h s Q.
  Proof. exact (fun x => x). Qed.

  Lemma wp_bind {A B} U (m : M S E A) (f : A -> M S E B) h s Q :
    wpu U m h s (fun a s1 e1 =>
      wpu U (f a) (h ++ e1) s1 (fun b s2 e2 => Q b s2 (e1 ++ e2))) ->
    wpu U (bind m f) h s Q.
  Proof.
    unfold wpu, bind. destruct (m h s) as [[[a s1] e1]|k]; auto.
    destruct (f a (h ++ e1) s1) as [[[b s2] e2]|k]; auto.
  Qed.

  Lemma wp_fail {A} U k h s (Q : A -> S -> list E -> Prop) :
    U k -> wpu U (fail k) h s Q.
  Proof. exact (fun x => x). Qed.

  Lemma wp_gets {A} U (f : S -> A) h s (Q : A -> S -> list E -> Prop) :
    Q (f s) s [] -> wpu U (gets f) h s Q.
  Proof. exact (fun x => x). Qed.

  Lemma wp_modify U (f : S -> S) h s (Q : unit -> S -> list E -> Prop) :
    Q tt (f s) [] -> wpu U (modify f) h s Q.
  Proof. exact (fun x => x). Qed.

  Lemma wp_emit U (e : E) h s (Q : unit -> S -> list E -> Prop) :
    Q tt s [e] -> wpu U (emit e) h s Q.
  Proof. exact (fun x => x). Qed.

  Lemma wp_query {A} U (o : list E -> A) mk h s (Q : A -> S -> list E -> Prop) :
    Q (o h) s [mk (o h)] -> wpu U (query o mk) h s Q.
  Proof. exact (fun x => x). Qed.

  Lemma wp_ok {A} U (m : M S E A) h s a s' es (Q : A -> S -> list E -> Prop) :
    m h s = Ok (a, s', es) -> Q a s' es -> wpu U m h s Q.
  Proof. unfold wpu. intros ->. auto. Qed.

  Lemma wp_inv {A} U (m : M S E A) h s a s' es (Q : A -> S -> list E -> Prop) :
    wpu U m h s Q -> m h s = Ok (a, s', es) -> Q a s' es.
  Proof. unfold wpu. intros H E1. rewrite E1 in H. exact H. Qed.

  Lemma wp_total {A} (m : M S E A) h s (Q : A -> S -> list E -> Prop) :
    wpu noub m h s Q -> exists a s' es, m h s = Ok (a, s', es) /\ Q a s' es.
  Proof.
    unfold wpu. destruct (m h s) as [[[a s'] es]|k]; [|intros []].
    intro H. exists a, s', es. auto.
  Qed.

  (** Equational forms. *)
  Definition addev {A} (es : list E) (r : res (A * S * list E)) : res (A * S * list E) :=
    match r with Ok (a, s, e) => Ok (a, s, es ++ e) | Undef k => Undef k end.

  Lemma addev_nil {A} (r : res (A * S * list E)) : addev [] r = r.
  Proof. destruct r as [[[a s] e]|k]; reflexivity. Qed.
  Lemma addev_addev {A} e1 e2 (r : res (A * S * list E)) :
    addev e1 (addev e2 r) = addev (e1 ++ e2) r.
  Proof. destruct r as [[[a s] e]|k]; simpl; [rewrite app_assoc|]; reflexivity. Qed.
  Lemma addev_ok {A} es a s e : addev es (Ok (a, s, e) : res (A * S * list E)) = Ok (a, s, es ++ e).
  Proof. reflexivity. Qed.

  Lemma bind_ok {A B} (m : M S E A) (f : A -> M S E B) h s a s1 e1 :
    m h s = Ok (a, s1, e1) -> bind m f h s = addev e1 (f a (h ++ e1) s1).
  Proof. unfold bind, addev. intros ->. reflexivity. Qed.
  Lemma bind_ok0 {A B} (m : M S E A) (f : A -> M S E B) h s a s1 :
    m h s = Ok (a, s1, []) -> bind m f h s = f a h s1.
  Proof.
    intro H. rewrite (bind_ok _ _ _ _ _ _ _ H), app_nil_r. apply addev_nil.
  Qed.
  Lemma bind_ret {A B} (a : A) (f : A -> M S E B) h s : bind (ret a) f h s = f a h s.
  Proof. apply bind_ok0. reflexivity. Qed.
  Lemma bind_gets {A B} (g : S -> A) (f : A -> M S E B) h s :
    bind (gets g) f h s = f (g s) h s.
  Proof. apply bind_ok0. reflexivity. Qed.
  Lemma bind_modify {B} (g : S -> S) (f : unit -> M S E B) h s :
    bind (modify g) f h s = f tt h (g s).
  Proof. apply bind_ok0. reflexivity. Qed.
  Lemma bind_emit {B} (e : E) (f : unit -> M S E B) h s :
    bind (emit e) f h s = addev [e] (f tt (h ++ [e]) s).
  Proof. apply bind_ok. reflexivity. Qed.
  Lemma bind_query {A B} (o : list E -> A) mk (f : A -> M S E B) h s :
    bind (query o mk) f h s = addev [mk (o h)] (f (o h) (h ++ [mk (o h)]) s).
  Proof. apply bind_ok. reflexivity. Qed.
  Lemma bind_bind {A B D} (m : M S E A) (f : A -> M S E B) (g : B -> M S E D) h s :
    bind (bind m f) g h s = bind m (fun a => bind (f a) g) h s.
  Proof.
    unfold bind. destruct (m h s) as [[[a s1] e1]|k]; auto.
    destruct (f a (h ++ e1) s1) as [[[b s2] e2]|k]; auto.
    rewrite app_assoc.
    destruct (g b ((h ++ e1) ++ e2) s2) as [[[d s3] e3]|k]; auto.
    rewrite app_assoc. reflexivity.
  Qed.
  Lemma bind_fail {A B} k (f : A -> M S E B) h s : bind (fail k) f h s = Undef k.
  Proof. reflexivity. Qed.
  Lemma bind_if {A B} (c : bool) (m1 m2 : M S E A) (f : A -> M S E B) h s :
    bind (if c then m1 else m2) f h s = if c then bind m1 f h s else bind m2 f h s.
  Proof. destruct c; reflexivity. Qed.
End Rules.

(** Arrays *)
Lemma len_nonneg l : 0 <= len l.
Proof. unfold len. lia. Qed.
Lemma len_app a b : len (a ++ b) = len a + len b.
Proof. unfold len. rewrite app_length. lia. Qed.
Lemma len_cons x l : len (x :: l) = 1 + len l.
Proof. unfold len. cbn [length]. lia. Qed.
Lemma len_nil : len [] = 0.
Proof. reflexivity. Qed.
Lemma len_repeat x n : len (repeat x n) = Z.of_nat n.
Proof. unfold len. rewrite repeat_length. reflexivity. Qed.

Lemma peek_Some {A} (l : list A) i v : peek l i = Some v ->
  0 <= i < Z.of_nat (length l) /\ nth_error l (Z.to_nat i) = Some v.
Proof.
  unfold peek. destruct (i <? 0) eqn:E; [discriminate|]. intro H.
  assert (Z.to_nat i < length l)%nat by (apply nth_error_Some; congruence).
  split; [lia|exact H].
Qed.
Lemma peek_in {A} (l : list A) i d : 0 <= i < Z.of_nat (length l) ->
  peek l i = Some (nth (Z.to_nat i) l d).
Proof.
  intro H. unfold peek. destruct (i <? 0) eqn:E; [lia|].
  apply nth_error_nth'. lia.
Qed.

(** total read used in statements about in-bounds reads *)
Definition get (l : list Z) (i : Z) : Z := nth (Z.to_nat i) l 0.

Lemma arr_get_ok {S E} (l : list Z) i (h : list E) (s : S) : 0 <= i < len l ->
  arr_get l i h s = Ok (get l i, s, []).
Proof.
  intro H. unfold arr_get. rewrite (peek_in l i 0) by (unfold len in H; lia). reflexivity.
Qed.

Lemma arr_get_ok' {S E A} (l : list A) i d (h : list E) (s : S) :
  0 <= i < Z.of_nat (length l) ->
  arr_get l i h s = Ok (nth (Z.to_nat i) l d, s, []).
Proof. intro H. unfold arr_get. rewrite (peek_in l i d) by lia. reflexivity. Qed.

Lemma upd_length {A} n (v : A) l : length (upd n v l) = length l.
Proof. revert n; induction l; destruct n; simpl; auto. Qed.
Lemma len_upd n v l : len (upd n v l) = len l.
Proof. unfold len. rewrite upd_length. reflexivity. Qed.

Lemma nth_upd {A} n m (v d : A) l : (n < length l)%nat ->
  nth m (upd n v l) d = if Nat.eqb m n then v else nth m l d.
Proof.
  revert n m; induction l; destruct n, m; simpl; intros; try lia; auto.
  apply IHl. lia.
Qed.

Lemma get_upd l i j v : 0 <= i < len l -> 0 <= j ->
  get (upd (Z.to_nat i) v l) j = if j =? i then v else get l j.
Proof.
  intros. unfold get. unfold len in *. rewrite nth_upd by lia.
  destruct (Nat.eqb_spec (Z.to_nat j) (Z.to_nat i)); destruct (Z.eqb_spec j i); try lia; auto.
Qed.

Lemma arr_set_ok {S E} (l : list Z) i v (h : list E) (s : S) : 0 <= i < len l ->
  arr_set l i v h s = Ok (upd (Z.to_nat i) v l, s, []).
Proof.
  intro H. unfold arr_set, in_bounds.
  replace ((0 <=? i) && (i <? len l)) with true by lia. reflexivity.
Qed.

Lemma bytes_upd n v l : bytes_ok l -> is_byte v -> bytes_ok (upd n v l).
Proof.
  intros H Hv. revert n; induction H; destruct n; simpl; constructor; auto.
  apply IHForall.
Qed.
Lemma bytes_app a b : bytes_ok (a ++ b) <-> bytes_ok a /\ bytes_ok b.
Proof. apply Forall_app. Qed.
Lemma bytes_firstn n l : bytes_ok l -> bytes_ok (firstn n l).
Proof.
  intro H. revert n; induction H; destruct n; simpl; constructor; auto.
  apply IHForall.
Qed.
Lemma bytes_skipn n l : bytes_ok l -> bytes_ok (skipn n l).
Proof.
  intro H. revert n; induction H; destruct n; simpl; try constructor; auto.
Qed.
Lemma bytes_sub l o n : bytes_ok l -> bytes_ok (sub l o n).
Proof. intro. apply bytes_firstn, bytes_skipn. assumption. Qed.
Lemma bytes_get l i : bytes_ok l -> is_byte (get l i).
Proof.
  intro H. unfold get. destruct (Nat.lt_ge_cases (Z.to_nat i) (length l)).
  - eapply Forall_forall in H; [exact H|]. apply nth_In. assumption.
  - rewrite nth_overflow by assumption. split; lia.
Qed.
Lemma bytes_blit l o src : bytes_ok l -> bytes_ok src -> bytes_ok (blit l o src).
Proof.
  intros. unfold blit. apply bytes_app. split; [apply bytes_firstn; assumption|].
  apply bytes_app. split; [assumption|apply bytes_skipn; assumption].
Qed.
Lemma bytes_repeat x n : is_byte x -> bytes_ok (repeat x n).
Proof. intro. induction n; simpl; constructor; auto. Qed.

Lemma len_blit l o src : 0 <= o -> o + len src <= len l -> len (blit l o src) = len l.
Proof.
  unfold blit, len. intros. rewrite !app_length, firstn_length, skipn_length. lia.
Qed.
Lemma length_blit l o src : 0 <= o -> o + len src <= len l -> length (blit l o src) = length l.
Proof. intros H1 H2. pose proof (len_blit l o src H1 H2). unfold len in *. lia. Qed.
Lemma length_sub l o n : 0 <= o -> 0 <= n -> o + n <= len l -> length (sub l o n) = Z.to_nat n.
Proof. unfold sub, len. intros. rewrite firstn_length, skipn_length. lia. Qed.
Lemma len_sub l o n : 0 <= o -> 0 <= n -> o + n <= len l -> len (sub l o n) = n.
Proof. intros. unfold len. rewrite length_sub by assumption. lia. Qed.

Lemma arr_memcpy_ok {S E} (l : list Z) off src n (h : list E) (s : S) :
  0 <= off -> 0 <= n -> off + n <= len l -> n <= len src ->
  arr_memcpy l off src n h s = Ok (blit l off (firstn (Z.to_nat n) src), s, []).
Proof.
  intros. unfold arr_memcpy.
  replace ((0 <=? off) && (0 <=? n) && (off + n <=? len l) && (n <=? len src)) with true by lia.
  reflexivity.
Qed.

(** two lists with the same reads are equal *)
Lemma list_ext (a b : list Z) : length a = length b ->
  (forall i, (i < length a)%nat -> nth i a 0 = nth i b 0) -> a = b.
Proof. intros. eapply nth_ext; eauto. Qed.

Lemma nth_firstn {A} n i (l : list A) d : (i < n)%nat -> nth i (firstn n l) d = nth i l d.
Proof.
  revert i l; induction n; destruct l, i; simpl; intros; auto; try lia.
  apply IHn. lia.
Qed.
Lemma nth_skipn {A} n i (l : list A) d : nth i (skipn n l) d = nth (n + i) l d.
Proof.
  revert l; induction n; destruct l; simpl; auto. destruct i; reflexivity.
Qed.

Lemma skipn_skipn' {A} a b (l : list A) : skipn a (skipn b l) = skipn (b + a) l.
Proof.
  revert l; induction b; destruct l; simpl; auto. apply skipn_nil.
Qed.

Lemma firstn_exact {A} n (a b : list A) : length a = n -> firstn n (a ++ b) = a.
Proof.
  intros <-. rewrite firstn_app, Nat.sub_diag, firstn_all, firstn_O. apply app_nil_r.
Qed.
Lemma skipn_exact {A} n (a b : list A) : length a = n -> skipn n (a ++ b) = b.
Proof.
  intros <-. rewrite skipn_app, Nat.sub_diag, skipn_all. reflexivity.
Qed.

(** [blit] at the end of a known prefix *)
Lemma blit_prefix p q src : (length src <= length q)%nat ->
  blit (p ++ q) (len p) src = (p ++ src) ++ skipn (length src) q.
Proof.
  intro H. unfold blit, len. rewrite Nat2Z.id.
  rewrite firstn_exact by reflexivity.
  rewrite skipn_app, skipn_all2 by lia.
  replace (length p + length src - length p)%nat with (length src) by lia.
  rewrite app_assoc. reflexivity.
Qed.
Lemma upd_prefix p q (v : Z) : (1 <= length q)%nat ->
  upd (Z.to_nat (len p)) v (p ++ q) = (p ++ [v]) ++ skipn 1 q.
Proof.
  intro H. unfold len. rewrite Nat2Z.id. induction p; simpl.
  - destruct q; simpl in *; [lia|reflexivity].
  - rewrite IHp. reflexivity.
Qed.

(** integer wraps *)
Lemma u8_id x : 0 <= x < 256 -> u8 x = x.
Proof. intro. unfold u8. apply Z.mod_small. assumption. Qed.
Lemma u16_id x : 0 <= x < 65536 -> u16 x = x.
Proof. intro. unfold u16. apply Z.mod_small. assumption. Qed.
Lemma u32_id x : 0 <= x < 4294967296 -> u32 x = x.
Proof. intro. unfold u32. apply Z.mod_small. assumption. Qed.
Lemma u8_range x : 0 <= u8 x < 256.
Proof. unfold u8. apply Z.mod_pos_bound. lia. Qed.
Lemma u16_range x : 0 <= u16 x < 65536.
Proof. unfold u16. apply Z.mod_pos_bound. lia. Qed.
Lemma u32_range x : 0 <= u32 x < 4294967296.
Proof. unfold u32. apply Z.mod_pos_bound. lia. Qed.
Lemma s8_range x : -128 <= s8 x < 128.
Proof.
  unfold s8. pose proof (Z.mod_pos_bound x 256 ltac:(lia)).
  destruct (x mod 256 <? 128) eqn:E; lia.
Qed.
Lemma s8_id x : -128 <= x < 128 -> s8 x = x.
Proof.
  intro. unfold s8. destruct (Z.ltb_spec x 0).
  - replace (x mod 256) with (x + 256).
    + destruct (x + 256 <? 128) eqn:E; lia.
    + symmetry. rewrite <- (Z.mod_add x 1 256) by lia. apply Z.mod_small. lia.
  - rewrite Z.mod_small by lia. destruct (x <? 128) eqn:E; lia.
Qed.
Lemma s32_range x : -2147483648 <= s32 x < 2147483648.
Proof.
  unfold s32. pose proof (Z.mod_pos_bound x 4294967296 ltac:(lia)).
  destruct (x mod 4294967296 <? 2147483648) eqn:E; lia.
Qed.

(** bit operations as arithmetic *)
Lemma land_255 x : Z.land x 255 = x mod 256.
Proof. change 255 with (Z.ones 8). rewrite Z.land_ones by lia. reflexivity. Qed.
Lemma land_15 x : Z.land x 15 = x mod 16.
Proof. change 15 with (Z.ones 4). rewrite Z.land_ones by lia. reflexivity. Qed.
Lemma land_7 x : Z.land x 7 = x mod 8.
Proof. change 7 with (Z.ones 3). rewrite Z.land_ones by lia. reflexivity. Qed.
Lemma land_63 x : Z.land x 63 = x mod 64.
Proof. change 63 with (Z.ones 6). rewrite Z.land_ones by lia. reflexivity. Qed.
Lemma land_3 x : Z.land x 3 = x mod 4.
Proof. change 3 with (Z.ones 2). rewrite Z.land_ones by lia. reflexivity. Qed.
Lemma shiftr_div x n : 0 <= n -> Z.shiftr x n = x / 2 ^ n.
Proof. apply Z.shiftr_div_pow2. Qed.
Lemma shiftl_mul x n : 0 <= n -> Z.shiftl x n = x * 2 ^ n.
Proof. apply Z.shiftl_mul_pow2. Qed.

Lemma testbit_small a n i : 0 <= a < 2 ^ n -> n <= i -> Z.testbit a i = false.
Proof.
  intros Ha Hi. destruct (Z.eq_dec a 0) as [->|Hz]; [apply Z.bits_0|].
  destruct (Z.ltb_spec n 0). { rewrite Z.pow_neg_r in Ha by assumption. lia. }
  apply Z.bits_above_log2; [lia|]. apply Z.log2_lt_pow2; [lia|].
  pose proof (Z.pow_le_mono_r 2 n i ltac:(lia) Hi). lia.
Qed.

(** [a | (b << n)] for a below 2^n is a sum *)
Lemma lor_shiftl_add a b n : 0 <= n -> 0 <= a < 2 ^ n -> Z.lor a (Z.shiftl b n) = a + b * 2 ^ n.
Proof.
  intros Hn Ha. rewrite <- (shiftl_mul b n) by assumption.
  assert (Hd : Z.land a (Z.shiftl b n) = 0).
  { apply Z.bits_inj'. intros j Hj. rewrite Z.land_spec, Z.shiftl_spec, Z.bits_0 by lia.
    destruct (Z.ltb_spec j n).
    - rewrite (Z.testbit_neg_r b (j - n)) by lia. apply andb_false_r.
    - rewrite (testbit_small a n j) by assumption. reflexivity. }
  rewrite (Z.add_nocarry_lxor _ _ Hd). symmetry. apply Z.lxor_lor. exact Hd.
Qed.
