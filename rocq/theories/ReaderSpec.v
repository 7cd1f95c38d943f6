(** * Specification vocabulary for C06, C07. *)
From Verif Require Import Base TlvSpec.

(** One complete TLV element: type, length and exactly that many value bytes. *)
Definition element (e : bytes) : Prop :=
  exists t tb lb v, var_form t tb /\ var_form (zlen v) lb /\ e = tb ++ lb ++ v.

(** The beginning of an element, not yet complete (possibly empty). *)
Definition incomplete (p : bytes) : Prop := exists s, s <> [] /\ element (p ++ s).
