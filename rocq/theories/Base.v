(** * Base: Python exceptions as values, bytes, slices.

    Shared conventions of the model (no repository code is modelled here). *)
From Coq Require Export List ZArith Lia Bool.
Export ListNotations.
Global Open Scope Z_scope.
Global Open Scope list_scope.

(** Python exception classes that the modelled code can raise. [OutOfFuel] is
    not a Python exception: it marks the exhaustion of a model loop bound and
    is proved unreachable wherever it occurs. *)
Inductive exn : Type :=
| ValueError | RuntimeError | IndexError | AttributeError | TypeError
| KeyError | ZeroDivisionError | SecurityException | OutOfFuel | OverflowError | OtherError.

Inductive res (A : Type) : Type :=
| Ok (a : A)
| Err (e : exn).
Arguments Ok {A} a.
Arguments Err {A} e.

Definition rbind {A B} (m : res A) (k : A -> res B) : res B :=
  match m with Ok a => k a | Err e => Err e end.

Definition rmap {A B} (f : A -> B) (m : res A) : res B :=
  match m with Ok a => Ok (f a) | Err e => Err e end.

Declare Scope res_scope.
Delimit Scope res_scope with res.
Notation "x <-- m ;; k" := (rbind m (fun x => k))
  (at level 61, m at next level, right associativity) : res_scope.
Notation "' p <-- m ;; k" := (rbind m (fun p => k))
  (at level 61, p pattern, m at next level, right associativity) : res_scope.

(** A byte string: Python bytearray / memoryview / Blob contents. *)
Definition bytes := list Z.
Definition is_byte (b : Z) : Prop := 0 <= b < 256.
Definition bytes_ok (l : bytes) : Prop := Forall is_byte l.
Definition is_byteb (b : Z) : bool := (0 <=? b) && (b <? 256).
Definition bytes_okb (l : bytes) : bool := forallb is_byteb l.

(** [len(x)] as a Python int. *)
Definition zlen {A} (l : list A) : Z := Z.of_nat (length l).

(** [l[a:b]] for 0 <= a, b (Python clamps both ends to the length). *)
Definition zslice {A} (l : list A) (a b : Z) : list A :=
  firstn (Z.to_nat (Z.min b (zlen l) - a)) (skipn (Z.to_nat (Z.min a (zlen l))) l).

(** Equality of byte strings / integer lists. *)
Fixpoint zlist_eqb (a b : list Z) : bool :=
  match a, b with
  | [], [] => true
  | x :: a', y :: b' => (x =? y) && zlist_eqb a' b'
  | _, _ => false
  end.
