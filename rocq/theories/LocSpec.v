(** * Specification of the KeyChain constructor with locators *)
From Verif Require Import Base NameModel UriModel DictModel WireModel HierModel PibModel FrontModel BagModel ChainModel SqlModel SqlSpec LocModel.

(** ** client.conf *)
(** The line gives the key a value: "key=value", spaces around them do not count; not if it begins with ";" *)
Definition assigns (line key value : str) : Prop :=
  exists a b, line = a ++ 61 :: b /\ ~ In 61 a /\ strip a = key /\ strip b = value /\ hd_error (lstrip line) <> Some 59.
(** What the file says of the key: the last line that assigns to it *)
Definition says (lines : list str) (key value : str) : Prop :=
  exists l1 line l2, lines = l1 ++ line :: l2 /\ assigns line key value /\ forall l v, In l l2 -> ~ assigns l key v.
Definition silent (lines : list str) (key : str) : Prop := forall l v, In l lines -> ~ assigns l key v.

(** ** What is in a PIB file *)
Definition same_content (d d' : db) : Prop := b_ids d' = b_ids d /\ b_keys d' = b_keys d /\ b_certs d' = b_certs d.
Definition erased (d : db) : Prop := b_ids d = [] /\ b_keys d = [] /\ b_certs d = [].
(** The foreign keys of the file hold (C77: they always do, linked_always) *)
Definition linked (d : db) : Prop :=
  (forall r, In r (b_keys d) -> exists i, In i (b_ids d) /\ r_id i = r_scope r) /\ (forall r, In r (b_certs d) -> exists k, In k (b_keys d) /\ r_id k = r_scope r).
(** the TPM locator that the PIB gives; "" if there is none *)
Definition stored (d : db) (x : str) : Prop := gives d p_getTpmLocator = Ok x.
(** The PIB was not reset (an empty locator in its table is never seen again: C77_any_locator_refuted) *)
Definition unreset (d : db) : Prop := ~ In [] (b_tpm d).

(** What is to happen with a PIB that has the TPM locator [old], if the TPM locator [new] is given *)
Inductive verdict : Type := Keep | Reset (tpm : str) | Refuse.
Definition judge (is_default : bool) (old new default_tpm : str) (allow : bool) : verdict :=
  if zlist_eqb old [] then Keep
  else if is_default then (if zlist_eqb old default_tpm then Keep else Reset default_tpm)
  else if zlist_eqb old new then Keep
  else if allow then Reset new else Refuse.
Definition fulfills (v : verdict) (p : str) (new : str) (d d' : db) (r : keychain + kerr) : Prop :=
  match v with
  | Keep => r = inl (KC (InFile p) new) /\ same_content d d'
  | Reset t => r = inl (KC (InFile p) t) /\ erased d'
  | Refuse => r = inr Mismatch /\ d' = d
  end.
(** The default locator of an environment: the variable, or client.conf, or the scheme of the platform *)
Definition default_says (var : option str) (conf : list str) (key scheme : str) (l : str) : Prop :=
  (exists v, var = Some v /\ v <> [] /\ l = v) \/
  ((var = None \/ var = Some []) /\ (says conf key l \/ (silent conf key /\ l = scheme ++ [58]))).
Definition uses (p : str) (h : list event) : list (call data) :=
  flat_map (fun ev => match ev with Use q o => if zlist_eqb q p then [o] else [] | _ => [] end) h.
