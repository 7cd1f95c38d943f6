(** * Models of PSyncState (python/pyndn/sync/detail/psync_state.py) and
    InMemoryStorageRetaining (python/pyndn/in_memory_storage/in_memory_storage_retaining.py). *)
From Verif Require Import Base TlvModel NameModel WireModel DictModel.
Local Open Scope res_scope.

(** ** PSyncState: the list of names *)
(** psync_state.py 81-82: the names, from the last to the first *)
Fixpoint enc_names (l : list name) (out : bytes) : bytes :=
  match l with [] => out | n :: l' => fst (enc_name n (enc_names l' out)) end.
(** psync_state.py 68-87: wireEncode *)
Definition pst_wireEncode (content : list name) : bytes :=
  let out := enc_names content [] in e_writeTypeAndLength 128 (zlen out) out.

Local Open Scope dec_scope.
(** psync_state.py 107-110: the loop, up to the end of the buffer *)
Fixpoint dec_names (fuel : nat) (acc : list name) : dec (list name) :=
  off <~ d_getOffset ;;
  n <~ d_inputLength ;;
  if off <? n then
    match fuel with
    | O => derr OutOfFuel
    | S fuel' => r <~ dec_name ;; dec_names fuel' (fst r :: acc)
    end
  else dret (rev acc).
(** psync_state.py 89-112: wireDecode *)
Definition dec_pst : dec (list name) :=
  endOffset <~ d_readNestedTlvsStart 128 ;;
  l <~ dfuel (fun fuel => dec_names fuel []) ;;
  d_finishNestedTlvs endOffset false ;;;
  dret l.
Definition pst_wireDecode (inp : bytes) : res (list name) :=
  match dec_pst inp 0 with Ok (l, _) => Ok l | Err e => Err e end.
Local Close Scope dec_scope.

(** ** InMemoryStorageRetaining

    A Data packet is a value of any type [D] with its full name (Data.getFullName, the
    name with the implicit digest); the copy of the packet is the value itself. *)
Section Storage.
Context {D : Type}.
Variable fullName : D -> name.
Definition storage : Type := dict name D.
(** in_memory_storage_retaining.py 40-47: insert *)
Definition st_insert (s : storage) (d : D) : storage := dset n_equals s (fullName d) d.
(** in_memory_storage_retaining.py 49-70: find.  The selectors of an Interest are not used. *)
Fixpoint st_find (s : storage) (n : name) : option D :=
  match s with [] => None | (k, d) :: s' => if n_isPrefixOf n k then Some d else st_find s' n end.
(** in_memory_storage_retaining.py 72-85: remove *)
Definition st_remove (s : storage) (p : name) : res storage :=
  let keys := filter (n_isPrefixOf p) (dkeys s) in
  fold_left (fun r k => s <-- r ;; ddel n_equals s k) keys (Ok s).
(** in_memory_storage_retaining.py 87-94: size *)
Definition st_size (s : storage) : Z := zlen s.

Inductive st_op : Type := Insert (d : D) | Remove (p : name).
Definition st_step (s : storage) (o : st_op) : res storage :=
  match o with Insert d => Ok (st_insert s d) | Remove p => st_remove s p end.
Definition st_run (ops : list st_op) : res storage := fold_left (fun r o => s <-- r ;; st_step s o) ops (Ok []).
End Storage.
