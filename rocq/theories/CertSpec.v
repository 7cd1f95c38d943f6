(** * Specification of the certificate cache and of the trust anchors, by the history of calls *)
From Verif Require Import Base NameModel NameSpec CertModel.
Section S.
Context {C : Type}.
Variable ct_name : C -> name.
Variable ct_notAfter : C -> res Z.
Variable ct_check : C -> res unit.

(** [p] is a prefix of [k], component values compared / component types and values compared *)
Definition under_values (p k : name) : Prop := prefix (map c_value p) (map c_value k).
Definition under_name (p k : name) : Prop := prefix p k.
(** NDN canonical order of names *)
Definition canon_lt (a b : name) : Prop := name_lt (n_key a) (n_key b).

(** ** The cache: calls that change it.  [CFind t] is any call of find at the time t. *)
Inductive cc_op : Type := CInsert (now : Z) (c : C) | CFind (now : Z) | CDelete (n : name) | CClear.
(** insert at [now] takes the certificate in: it has a validity period that is not over, and
    the format of a certificate *)
Definition taken (now : Z) (c : C) : Prop := exists na, ct_notAfter c = Ok na /\ now <= na /\ ct_check c = Ok tt.
(** the certificate inserted at [t0] may be returned before the time [r] *)
Definition until (maxLifetime t0 : Z) (c : C) (r : Z) : Prop := exists na, ct_notAfter c = Ok na /\ r = Z.min na (t0 + maxLifetime).
(** After the calls [ops], the certificate [c] is in the cache, up to the time [r]: it was
    taken in, and since then it was not replaced, deleted or cleared, and there was no find
    at a time not before r. *)
Definition cached (maxLifetime : Z) (ops : list cc_op) (c : C) (r : Z) : Prop :=
  exists o1 t0 o2, ops = o1 ++ CInsert t0 c :: o2 /\ taken t0 c /\ until maxLifetime t0 c r /\
    (forall t c', In (CInsert t c') o2 -> taken t c' -> ct_name c' <> ct_name c) /\
    ~ In (CDelete (ct_name c)) o2 /\ ~ In CClear o2 /\ (forall t, In (CFind t) o2 -> t < r).

(** The state after the calls.  An insert that raises leaves the state as it is at that
    point; find runs the refresh and leaves the state it gives. *)
Local Open Scope res_scope.
Definition cc_step (s : cache C) (o : cc_op) : res (cache C) :=
  match o with
  | CInsert now c => Ok (fst (cc_insert ct_name ct_notAfter ct_check s now c))
  | CFind now => cc_refresh s now
  | CDelete n => Ok (cc_delete s n)
  | CClear => Ok (cc_clear s)
  end.
Definition cc_run (maxLifetime : Z) (ops : list cc_op) : res (cache C) := fold_left (fun r o => s <-- r ;; cc_step s o) ops (Ok (cc_new maxLifetime)).
End S.
