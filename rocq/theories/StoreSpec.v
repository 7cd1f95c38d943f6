(** * Specification of a retaining storage: by the history of its operations *)
From Verif Require Import Base NameModel StoreModel.
Section S.
Context {D : Type}.
Variable fullName : D -> name.
(** The name [p] is a prefix of [k], component values compared *)
Definition under (p k : name) : Prop := exists r, map c_value k = map c_value p ++ r.
(** [d] is stored under the full name [k] after [ops]: it was inserted, and after that no
    packet with the same full name was inserted and no prefix of [k] was removed. *)
Definition holds (ops : list (@st_op D)) (k : name) (d : D) : Prop :=
  exists ops1 ops2, ops = ops1 ++ Insert d :: ops2 /\ fullName d = k /\
    (forall d', In (Insert d') ops2 -> fullName d' <> k) /\ (forall p, In (Remove p) ops2 -> ~ under p k).
(** [k] became present at operation number [b] and stayed. *)
Definition born (ops : list (@st_op D)) (k : name) (b : nat) : Prop :=
  exists ops1 d ops2, ops = ops1 ++ Insert d :: ops2 /\ length ops1 = b /\ fullName d = k /\
    (forall d', ~ holds ops1 k d') /\ (forall p, In (Remove p) ops2 -> ~ under p k).
End S.
