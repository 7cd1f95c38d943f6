(** * Specification of the trust anchor container, by the history of calls *)
From Verif Require Import Base NameModel NameSpec CertModel CertSpec.
Section S.
Context {C I : Type}.
Variable ct_name : C -> name.
Variable ct_check : C -> res unit.
(** The calls: insert of a certificate in a static group; insert of a path (with what the
    path holds at that time); remove from a group; any find (with what the path of each
    dynamic group holds then); clear. *)
Inductive t_op : Type :=
  | TInsert (id : Z) (c : C)
  | TPath (id period now : Z) (files : res (list (option C)))
  | TRemove (id : Z) (n : name)
  | TFind (now : Z) (files : Z -> res (list (option C)))
  | TClear.
(** The state after the calls, whether they raise or not *)
Definition t_step (t : container C) (o : t_op) : container C :=
  match o with
  | TInsert id c => fst (tc_insert ct_name ct_check t id c)
  | TPath id period now files => fst (tc_insertPath ct_name ct_check t id period now files)
  | TRemove id n => fst (tc_remove t id n)
  | TFind now files => fst (tc_refresh ct_name ct_check t now files)
  | TClear => tc_clear t
  end.
Definition t_run (ops : list t_op) : container C := fold_left t_step ops tc_new.
(** the call gives the certificate [c] to the container *)
Definition gives (o : t_op) (c : C) : Prop :=
  match o with
  | TInsert _ c' => c' = c
  | TPath _ _ _ files => exists fs, files = Ok fs /\ In (Some c) fs
  | TFind _ files => exists id fs, files id = Ok fs /\ In (Some c) fs
  | _ => False
  end.
(** [c] was given to the container since the last clear, and has the format of a certificate *)
Definition loaded (ops : list t_op) (c : C) : Prop :=
  ct_check c = Ok tt /\ exists o1 o o2, ops = o1 ++ o :: o2 /\ gives o c /\ ~ In TClear o2.
(** [c] is one of the anchors *)
Definition anchored (t : container C) (c : C) : Prop := exists k, In (k, c) (ac_dict (tc_anchors t)).
(** With one dynamic group of refresh period [p], first read at [t0] as [f0], and then finds
    at the times and with the directory contents given: the time of the last reading and
    what was read then. *)
Definition reading (p : Z) (last : Z * list (option C)) (find : Z * list (option C)) : Z * list (option C) :=
  if fst last + p <=? fst find then find else last.
Definition last_reading (p t0 : Z) (f0 : list (option C)) (finds : list (Z * list (option C))) : Z * list (option C) := fold_left (reading p) finds (t0, f0).
End S.
