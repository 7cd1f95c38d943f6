(** * Specification: Names as keys

    The values of the objects are tracked by the history alone, without hashes; the dictionary is the map of DictModel from
    names to values. *)
From Verif Require Import Base NameModel DictModel HashModel.

Section Spec.
Context {V : Type}.
Notation op := (@op V).
Record spec : Type := Spec { p_names : list name; p_dict : dict name V }.
Definition value (p : spec) (i : nat) : name := nth i (p_names p) [].
Fixpoint upd (l : list name) (i : nat) (n : name) : list name :=
  match l, i with [], _ => [] | _ :: r, O => n :: r | x :: r, S j => x :: upd r j n end.
Definition spec_exec (p : spec) (o : op) : spec * option (option V) :=
  match o with
  | ONew n => (Spec (p_names p ++ [n]) (p_dict p), None)
  | OCopy i => (Spec (p_names p ++ [value p i]) (p_dict p), None)
  | OAppend i n => (Spec (upd (p_names p) i (value p i ++ n)) (p_dict p), None)
  | OAppendName i j => (Spec (upd (p_names p) i (value p i ++ value p j)) (p_dict p), None)
  | OClear i => (Spec (upd (p_names p) i []) (p_dict p), None)
  | OSet i n => (Spec (upd (p_names p) i n) (p_dict p), None)
  | OHash i => (p, None)
  | OGet i => (p, Some (dget n_equals (p_dict p) (value p i)))
  | OPut i v => (Spec (p_names p) (dset n_equals (p_dict p) (value p i) v), None)
  | ODel i => (Spec (p_names p) (dremove n_equals (p_dict p) (value p i)), Some (dget n_equals (p_dict p) (value p i)))
  end.
Definition spec_run (os : list op) : spec := fold_left (fun p o => fst (spec_exec p o)) os (Spec [] []).

(** The object that an operation changes; the objects an operation uses *)
Definition changes (o : op) : option nat := match o with OAppend i _ | OAppendName i _ | OClear i | OSet i _ => Some i | _ => None end.
Definition uses (o : op) : list nat :=
  match o with ONew _ => [] | OCopy i | OAppend i _ | OClear i | OSet i _ | OHash i | OGet i | OPut i _ | ODel i => [i] | OAppendName i j => [i; j] end.
End Spec.
(** Only existing objects are used, and no Name is changed while it is a key of the dictionary *)
Inductive disciplined {V} bhash red : list (@op V) -> Prop :=
| d_nil : disciplined bhash red []
| d_snoc : forall os o, disciplined bhash red os -> (forall i, In i (uses o) -> (i < length (s_heap (run bhash red os)))%nat) ->
    (forall i, changes o = Some i -> ~ In i (map e_key (s_dict (run bhash red os)))) -> disciplined bhash red (os ++ [o]).
