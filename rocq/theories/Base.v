(** Base.v -- integers, byte buffers and the effect monad in which the C code
    is transcribed.  No part of /repo is modelled here; these are the meanings
    of the C constructs the model uses. *)
From Coq Require Export List ZArith Lia Bool.
Export ListNotations.
Open Scope Z_scope.

(** ** C integer types
    Values are unbounded [Z]; every conversion to a fixed-width type that the
    C code performs (declaration type, parameter type, store, cast) is written
    explicitly with one of these. *)
Definition u8  (x : Z) : Z := x mod 256.
Definition u16 (x : Z) : Z := x mod 65536.
Definition u32 (x : Z) : Z := x mod 4294967296.
Definition s8  (x : Z) : Z := let y := x mod 256 in if y <? 128 then y else y - 256.
Definition s16 (x : Z) : Z := let y := x mod 65536 in if y <? 32768 then y else y - 65536.
Definition s32 (x : Z) : Z :=
  let y := x mod 4294967296 in if y <? 2147483648 then y else y - 4294967296.
(** C's conversion of a boolean to an integer. *)
Definition b2z (b : bool) : Z := if b then 1 else 0.

(** A C byte buffer is a list of [Z]; [bytes_ok] says its cells are uint8_t. *)
Definition is_byte (b : Z) : Prop := 0 <= b < 256.
Definition bytes_ok (l : list Z) : Prop := Forall is_byte l.
Definition len (l : list Z) : Z := Z.of_nat (length l).

(** ** Outcomes
    Undefined behaviour is a distinct outcome, not a value. *)
Inductive ub :=
| UB_oob        (* array access / memcpy outside the object          *)
| UB_null       (* dereference of a NULL pointer or callback          *)
| UB_shift      (* shift amount not below the width, or 1 shifted out *)
| UB_overflow   (* signed arithmetic overflow                         *)
| UB_div        (* integer division by zero                           *)
| UB_diverge.   (* a loop of the C code that does not terminate       *)

Inductive res (A : Type) :=
| Ok (a : A)
| Undef (k : ub).
Arguments Ok {A} a.
Arguments Undef {A} k.

(** ** The effect monad
    [M S E A]: computations over C statics [S] that emit external calls [E].
    The first argument is the complete history of external calls so far; it is
    only ever passed to environment oracles, so that an external function may
    answer differently each time it is called. The list returned holds the
    external calls made by this computation, oldest first. *)
Section Monad.
  Context {S E : Type}.
  Definition M (A : Type) : Type := list E -> S -> res (A * S * list E).
  Definition ret {A} (a : A) : M A := fun _ s => Ok (a, s, []).
  Definition bind {A B} (m : M A) (f : A -> M B) : M B := fun h s =>
    match m h s with
    | Undef k => Undef k
    | Ok (a, s1, e1) =>
        match f a (h ++ e1) s1 with
        | Undef k => Undef k
        | Ok (b, s2, e2) => Ok (b, s2, e1 ++ e2)
        end
    end.
  Definition fail {A} (k : ub) : M A := fun _ _ => Undef k.
  Definition gets {A} (f : S -> A) : M A := fun _ s => Ok (f s, s, []).
  Definition modify (f : S -> S) : M unit := fun _ s => Ok (tt, f s, []).
  Definition emit (e : E) : M unit := fun _ s => Ok (tt, s, [e]).
  (** An external call whose answer [v] is chosen by the environment from the
      history; the answer is recorded in the event. *)
  Definition query {A} (oracle : list E -> A) (mk : A -> E) : M A :=
    fun h s => Ok (oracle h, s, [mk (oracle h)]).
  Definition when (b : bool) (m : M unit) : M unit := if b then m else ret tt.
End Monad.
Arguments M : clear implicits.

Declare Scope m_scope.
Delimit Scope m_scope with m.
Notation "x <- m ;; k" := (bind m (fun x => k))
  (at level 61, m at next level, right associativity) : m_scope.
Notation "' p <- m ;; k" := (bind m (fun x => match x with p => k end))
  (at level 61, p pattern, m at next level, right associativity) : m_scope.
Notation "m ;;; k" := (bind m (fun _ => k))
  (at level 61, right associativity) : m_scope.
Open Scope m_scope.

(** ** Arrays: every access is bounds-checked; outside the object it is UB. *)
Definition in_bounds (l : list Z) (i : Z) : bool := (0 <=? i) && (i <? len l).
Definition peek {A} (l : list A) (i : Z) : option A :=
  if i <? 0 then None else nth_error l (Z.to_nat i).
Definition arr_get {S E} {A} (l : list A) (i : Z) : M S E A :=
  match peek l i with Some v => ret v | None => fail UB_oob end.
Fixpoint upd {A} (n : nat) (v : A) (l : list A) : list A :=
  match l, n with
  | [], _ => []
  | _ :: t, O => v :: t
  | x :: t, S n' => x :: upd n' v t
  end.
Definition arr_set {S E} (l : list Z) (i v : Z) : M S E (list Z) :=
  if in_bounds l i then ret (upd (Z.to_nat i) v l) else fail UB_oob.
(** [sub l off n]: the [n] bytes at offset [off] (used only where in bounds). *)
Definition sub (l : list Z) (off n : Z) : list Z :=
  firstn (Z.to_nat n) (skipn (Z.to_nat off) l).
(** memcpy(l + off, src, n): both objects must contain the range. *)
Definition blit (l : list Z) (off : Z) (src : list Z) : list Z :=
  firstn (Z.to_nat off) l ++ src ++ skipn (Z.to_nat off + length src) l.
Definition arr_memcpy {S E} (l : list Z) (off : Z) (src : list Z) (n : Z)
  : M S E (list Z) :=
  if (0 <=? off) && (0 <=? n) && (off + n <=? len l) && (n <=? len src)
  then ret (blit l off (firstn (Z.to_nat n) src)) else fail UB_oob.
