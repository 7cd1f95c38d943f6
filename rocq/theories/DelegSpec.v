(** * Specification of DelegationSet: a map from names to preferences, listed by
    preference and then by canonical name order. *)
From Verif Require Import Base NameModel NameSpec WireModel DelegModel.

(** Order of delegations. *)
Definition dlt (a b : delegation) : Prop :=
  fst a < fst b \/ fst a = fst b /\ name_lt (n_key (snd a)) (n_key (snd b)).

(** The preference of a name after a history: that of the last add, unless it was
    removed or cleared later. *)
Inductive pref_after : list ds_op -> name -> Z -> Prop :=
| pa_add : forall h p n, pref_after (h ++ [DsAdd p n]) n p
| pa_add_other : forall h p n m q, pref_after h m q -> n <> m -> pref_after (h ++ [DsAdd p n]) m q
| pa_remove_other : forall h n m q, pref_after h m q -> n <> m -> pref_after (h ++ [DsRemove n]) m q.

(** Names as the constructors build them. *)
Definition ds_op_valid (o : ds_op) : Prop :=
  match o with DsAdd _ n | DsRemove n => Forall c_valid n | DsClear => True end.
