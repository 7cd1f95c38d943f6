(** * Model of DelegationSet (python/pyndn/delegation_set.py).
    The change count is not modelled here. *)
From Verif Require Import Base TlvModel NameModel WireModel.
Local Open Scope res_scope.

(** delegation_set.py 81-97: Delegation.compare *)
Definition dg_compare (a b : delegation) : res Z :=
  if fst a <? fst b then Ok (-1) else if fst b <? fst a then Ok 1 else n_compare (snd a) (snd b).

(** delegation_set.py 136-157: remove. The loop pops matching entries from the last
    to the first; the rest keep their order. *)
Definition ds_remove (n : name) (ds : list delegation) : list delegation * bool :=
  (filter (fun d => negb (n_equals (snd d) n)) ds, existsb (fun d => n_equals (snd d) n) ds).

(** delegation_set.py 112-120: insertion before the first entry which is not less *)
Fixpoint ds_insert (new : delegation) (ds : list delegation) : res (list delegation) :=
  match ds with
  | [] => Ok [new]
  | d :: ds' =>
      c <-- dg_compare d new ;;
      if 0 <=? c then Ok (new :: d :: ds') else r <-- ds_insert new ds' ;; Ok (d :: r)
  end.

(** delegation_set.py 99-121: add *)
Definition ds_add (preference : Z) (n : name) (ds : list delegation) : res (list delegation) :=
  ds_insert (preference, n) (fst (ds_remove n ds)).

(** delegation_set.py 123-134: addUnsorted; 159-164: clear *)
Definition ds_addUnsorted (preference : Z) (n : name) (ds : list delegation) : list delegation := ds ++ [(preference, n)].
Definition ds_clear (ds : list delegation) : list delegation := [].

(** delegation_set.py 186-198: find *)
Fixpoint ds_find_from (i : Z) (n : name) (ds : list delegation) : Z :=
  match ds with
  | [] => -1
  | d :: ds' => if n_equals (snd d) n then i else ds_find_from (i + 1) n ds'
  end.
Definition ds_find (n : name) (ds : list delegation) : Z := ds_find_from 0 n ds.

(** tlv_0_2_wire_format.py 636-672: encodeDelegationSet, decodeDelegationSet (no outer TLV) *)
Definition encodeDelegationSet (ds : list delegation) : res bytes := enc_delegationSet ds [].
Definition decodeDelegationSet (inp : bytes) : res (list delegation) :=
  r <-- dec_delegationSet (zlen inp) inp 0 ;; Ok (fst r).

(** A history of calls on one object. *)
Inductive ds_op : Type := DsAdd (preference : Z) (n : name) | DsRemove (n : name) | DsClear.
Definition ds_step (ds : list delegation) (o : ds_op) : res (list delegation) :=
  match o with
  | DsAdd p n => ds_add p n ds
  | DsRemove n => Ok (fst (ds_remove n ds))
  | DsClear => Ok (ds_clear ds)
  end.
Definition ds_run (ops : list ds_op) (ds : list delegation) : res (list delegation) :=
  fold_left (fun r o => s <-- r ;; ds_step s o) ops (Ok ds).
