(** * Model of the hashes of names and of Python dictionaries with Name objects as keys

    hash() of bytes objects is [bhash] and hash() of an int (the reduction to a machine word) is [red]; both are any
    functions. The Name objects are in a heap; an object is changed by append, clear, set and wireDecode. *)
From Verif Require Import Base NameModel.

Section Hash.
Variable bhash : bytes -> Z.
Variable red : Z -> Z.

(** name.py 608-612: Component.__hash__, as hash() gives it; blob.py 318-332: Blob.__hash__ *)
Definition c_hash (c : comp) : Z := red (37 * (if c_type c =? CT_OTHER then c_other c else c_type c) + bhash (c_value c)).
(** name.py 1299-1302: the loop *)
Definition n_hash (n : name) : Z := fold_left (fun h c => 37 * h + c_hash c) n 0.

(** name.py 36-50: _components, _changeCount, _hash, _hashCodeChangeCount *)
Record nobj : Type := NObj { o_comps : name; o_count : Z; o_hash : option Z; o_hcount : Z }.
Definition o_new (n : name) : nobj := NObj n 0 None 0.
(** 726-743: append(name) or append(component); 745-750: clear *)
Definition o_append (o : nobj) (n : name) : nobj := NObj (o_comps o ++ n) (o_count o + 1) (o_hash o) (o_hcount o).
Definition o_clear (o : nobj) : nobj := NObj [] (o_count o + 1) (o_hash o) (o_hcount o).
(** 614-701: set, and tlv_0_2_wire_format.py _decodeName: clear, and append for each component (the first ones, when it raises) *)
Definition o_set (o : nobj) (n : name) : nobj := fold_left (fun o c => o_append o [c]) n (o_clear o).
(** 1292-1306: __hash__; the object after it and the result *)
Definition o_hashOf (o : nobj) : nobj * Z :=
  let o := if negb (o_hcount o =? o_count o) then NObj (o_comps o) (o_count o) None (o_count o) else o in
  match o_hash o with
  | Some h => (o, h)
  | None => let h := n_hash (o_comps o) in (NObj (o_comps o) (o_count o) (Some h) (o_hcount o), h)
  end.

(** A dict: the entries in insertion order, each with the hash from when it was inserted, the key object and the value *)
Section Dict.
Context {V : Type}.
Record entry : Type := Entry { e_hash : Z; e_key : nat; e_val : V }.
Record state : Type := State { s_heap : list nobj; s_dict : list entry }.
Definition obj (s : state) (i : nat) : nobj := nth i (s_heap s) (o_new []).
Fixpoint put_at (l : list nobj) (i : nat) (o : nobj) : list nobj :=
  match l, i with [], _ => [] | _ :: r, O => o :: r | x :: r, S j => x :: put_at r j o end.
Definition set_obj (s : state) (i : nat) (o : nobj) : state := State (put_at (s_heap s) i o) (s_dict s).
(** The key of an entry is the one looked for: the same hash, and the same object or an equal one (1268-1269) *)
Definition hit (s : state) (h : Z) (i : nat) (e : entry) : bool :=
  (e_hash e =? h) && (Nat.eqb (e_key e) i || n_equals (o_comps (obj s (e_key e))) (o_comps (obj s i))).
Fixpoint look (s : state) (h : Z) (i : nat) (d : list entry) : option V :=
  match d with [] => None | e :: r => if hit s h i e then Some (e_val e) else look s h i r end.
Fixpoint put_entry (s : state) (h : Z) (i : nat) (v : V) (d : list entry) : list entry :=
  match d with [] => [Entry h i v] | e :: r => if hit s h i e then Entry (e_hash e) (e_key e) v :: r else e :: put_entry s h i v r end.
Fixpoint del_entry (s : state) (h : Z) (i : nat) (d : list entry) : list entry :=
  match d with [] => [] | e :: r => if hit s h i e then r else e :: del_entry s h i r end.

(** What a program does: a new Name; append (of components), append of a Name, clear, set; hash(n); d.get(n), d[n] = v, d.pop(n, None) *)
Inductive op : Type :=
| ONew (n : name) | OCopy (i : nat) | OAppend (i : nat) (n : name) | OAppendName (i j : nat) | OClear (i : nat) | OSet (i : nat) (n : name)
| OHash (i : nat) | OGet (i : nat) | OPut (i : nat) (v : V) | ODel (i : nat).
Inductive result : Type := RNone | RHash (h : Z) | RGet (v : option V).
Definition exec (s : state) (o : op) : state * result :=
  match o with
  | ONew n => (State (s_heap s ++ [o_new n]) (s_dict s), RNone)
  | OCopy i => (State (s_heap s ++ [o_new (o_comps (obj s i))]) (s_dict s), RNone)
  | OAppend i n => (set_obj s i (o_append (obj s i) n), RNone)
  | OAppendName i j => (set_obj s i (o_append (obj s i) (o_comps (obj s j))), RNone)
  | OClear i => (set_obj s i (o_clear (obj s i)), RNone)
  | OSet i n => (set_obj s i (o_set (obj s i) n), RNone)
  | OHash i => let r := o_hashOf (obj s i) in (set_obj s i (fst r), RHash (red (snd r)))
  | OGet i => let r := o_hashOf (obj s i) in let s := set_obj s i (fst r) in (s, RGet (look s (red (snd r)) i (s_dict s)))
  | OPut i v => let r := o_hashOf (obj s i) in let s := set_obj s i (fst r) in (State (s_heap s) (put_entry s (red (snd r)) i v (s_dict s)), RNone)
  | ODel i => let r := o_hashOf (obj s i) in let s := set_obj s i (fst r) in (State (s_heap s) (del_entry s (red (snd r)) i (s_dict s)), RGet (look s (red (snd r)) i (s_dict s)))
  end.
Definition run (os : list op) : state := fold_left (fun s o => fst (exec s o)) os (State [] []).
End Dict.
End Hash.
