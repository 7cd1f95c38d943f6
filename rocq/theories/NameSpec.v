(** * Specification vocabulary for names: NDN canonical order and prefixes.

    A component is its TLV type code and its value. *)
From Verif Require Import Base NameModel.

Definition key : Type := (Z * bytes)%type.

(** Lexicographic order of equal-length byte strings: first difference. *)
Definition bytes_lt (a b : bytes) : Prop :=
  exists p x y r s, a = p ++ x :: r /\ b = p ++ y :: s /\ x < y.

(** Canonical order of components: type, then length, then bytes. *)
Definition key_lt (a b : key) : Prop :=
  fst a < fst b \/
  fst a = fst b /\
  (zlen (snd a) < zlen (snd b) \/ zlen (snd a) = zlen (snd b) /\ bytes_lt (snd a) (snd b)).

(** [a] is a prefix of [b]. *)
Definition prefix {A} (a b : list A) : Prop := exists s, b = a ++ s.
Definition proper_prefix {A} (a b : list A) : Prop := exists x s, b = a ++ x :: s.

(** Canonical order of names: first differing component decides; a proper prefix is less. *)
Definition name_lt (a b : list key) : Prop :=
  proper_prefix a b \/
  exists p x y r s, a = p ++ x :: r /\ b = p ++ y :: s /\ key_lt x y.

(** The key of a model component: its TLV type code and value. The type field
    holds the code itself except for the escape value OTHER_CODE (0x7fff). *)
Definition c_code (c : comp) : Z := if c_type c =? 32767 then c_other c else c_type c.
Definition c_key (c : comp) : key := (c_code c, c_value c).
Definition n_key (n : name) : list key := map c_key n.

(** A component as the constructors build it, where OTHER_CODE is used only for
    codes that have no type of their own. *)
Definition c_valid (c : comp) : Prop :=
  bytes_ok (c_value c) /\
  (c_type c = CT_OTHER /\ 0 <= c_other c /\ c_other c <> 1 /\ c_other c <> 2 /\ c_other c <> 8
   \/ (c_type c = CT_IMPLICIT \/ c_type c = CT_PARAMS \/ c_type c = CT_GENERIC) /\ c_other c = -1).
