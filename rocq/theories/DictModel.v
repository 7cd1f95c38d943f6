(** * Python dictionaries

    A dict is the list of its (key, value) pairs in insertion order; the keys are compared with [eqb]
    (the __eq__ of the key class, which its __hash__ is consistent with). *)
From Verif Require Import Base.
Section Dict.
Context {K V : Type}.
Variable eqb : K -> K -> bool.
Definition dict : Type := list (K * V).
(** d.get(k) *)
Fixpoint dget (d : dict) (k : K) : option V :=
  match d with [] => None | (k', v) :: r => if eqb k' k then Some v else dget r k end.
(** k in d *)
Definition din (d : dict) (k : K) : bool := match dget d k with Some _ => true | None => false end.
(** d[k] *)
Definition dindex (d : dict) (k : K) : res V := match dget d k with Some v => Ok v | None => Err KeyError end.
(** d[k] = v: the key of an existing entry stays *)
Fixpoint dset (d : dict) (k : K) (v : V) : dict :=
  match d with [] => [(k, v)] | (k', v') :: r => if eqb k' k then (k', v) :: r else (k', v') :: dset r k v end.
(** the dict without k *)
Fixpoint dremove (d : dict) (k : K) : dict :=
  match d with [] => [] | (k', v') :: r => if eqb k' k then r else (k', v') :: dremove r k end.
(** del d[k] *)
Definition ddel (d : dict) (k : K) : res dict := if din d k then Ok (dremove d k) else Err KeyError.
(** d.keys() *)
Definition dkeys (d : dict) : list K := map fst d.
End Dict.
Arguments dict : clear implicits.
