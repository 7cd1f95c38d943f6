(** * Specification of PibMemory, by the history of calls (the newest call first) *)
From Verif Require Import Base NameModel NameSpec HierSpec PibModel.
Definition comp_dec : forall a b : comp, {a = b} + {a <> b}.
Proof. decide equality; try apply Z.eq_dec. apply list_eq_dec, Z.eq_dec. Defined.
Definition name_dec : forall a b : name, {a = b} + {a <> b} := list_eq_dec comp_dec.

Section S.
Context {C : Type}.
Variable ct_name : C -> name.
Variable ct_content : C -> bytes.
Variable ct_check : C -> res unit.
Notation call := (call C).

(** /<identity>/KEY/<key id> -> /<identity>;  /<identity>/KEY/<key id>/<issuer>/<version> ->
    /<identity>/KEY/<key id> *)
Definition owner (n : name) : name := firstn (length n - 2) n.

(** the identity exists *)
Fixpoint ident (h : list call) (i : name) : bool :=
  match h with
  | [] => false
  | AddIdentity j :: h' | SetDefaultIdentity j :: h' | AddKey j _ _ :: h' => if name_dec j i then true else ident h' i
  | AddCert c :: h' => if name_dec (owner (owner (ct_name c))) i then true else ident h' i
  | RemoveIdentity j :: h' => if name_dec j i then false else ident h' i
  | Clear :: _ => false
  | _ :: h' => ident h' i
  end.
(** the default identity: the first one added while there was none, unless it is set *)
Fixpoint def_id (h : list call) : option name :=
  match h with
  | [] => None
  | AddIdentity j :: h' | AddKey j _ _ :: h' => match def_id h' with None => Some j | d => d end
  | AddCert c :: h' => match def_id h' with None => Some (owner (owner (ct_name c))) | d => d end
  | SetDefaultIdentity j :: _ => Some j
  | RemoveIdentity j :: h' => match def_id h' with Some d => if name_dec j d then None else Some d | None => None end
  | Clear :: _ => None
  | _ :: h' => def_id h'
  end.
(** the bits of a key *)
Fixpoint key_bits (h : list call) (k : name) : option bytes :=
  match h with
  | [] => None
  | AddKey _ k' b :: h' => if name_dec k' k then Some b else key_bits h' k
  | AddCert c :: h' => if name_dec (owner (ct_name c)) k then Some (ct_content c) else key_bits h' k
  | RemoveKey k' :: h' => if name_dec k' k then None else key_bits h' k
  | RemoveIdentity i :: h' => if name_dec (owner k) i then None else key_bits h' k
  | Clear :: _ => None
  | _ :: h' => key_bits h' k
  end.
(** the certificate of a name *)
Fixpoint cert (h : list call) (n : name) : option C :=
  match h with
  | [] => None
  | AddCert c :: h' => if name_dec (ct_name c) n then Some c else cert h' n
  | RemoveCert n' :: h' => if name_dec n' n then None else cert h' n
  | RemoveKey k :: h' => if name_dec (owner n) k then None else cert h' n
  | RemoveIdentity i :: h' => if name_dec (owner (owner n)) i then None else cert h' n
  | Clear :: _ => None
  | _ :: h' => cert h' n
  end.
(** the default key of an identity; it is forgotten when any key of the identity is removed *)
Fixpoint def_key (h : list call) (i : name) : option name :=
  match h with
  | [] => None
  | AddKey j k _ :: h' => match def_key h' i with None => if name_dec j i then Some k else None | d => d end
  | AddCert c :: h' => match def_key h' i with None => if name_dec (owner (owner (ct_name c))) i then Some (owner (ct_name c)) else None | d => d end
  | SetDefaultKey j k :: h' => if name_dec j i then match key_bits h' k with Some _ => Some k | None => def_key h' i end else def_key h' i
  | RemoveKey k :: h' => if name_dec (owner k) i then None else def_key h' i
  | RemoveIdentity j :: h' => if name_dec j i then None else def_key h' i
  | Clear :: _ => None
  | _ :: h' => def_key h' i
  end.
(** the default certificate of a key *)
Fixpoint def_cert (h : list call) (k : name) : option name :=
  match h with
  | [] => None
  | AddCert c :: h' => match def_cert h' k with None => if name_dec (owner (ct_name c)) k then Some (ct_name c) else None | d => d end
  | SetDefaultCert k' n :: h' => if name_dec k' k then match cert h' n with Some _ => Some n | None => def_cert h' k end else def_cert h' k
  | RemoveCert n :: h' => match def_cert h' k with Some d => if name_dec n d then None else Some d | None => None end
  | RemoveKey k' :: h' => if name_dec k' k then None else def_cert h' k
  | RemoveIdentity i :: h' => if name_dec (owner k) i then None else def_cert h' k
  | Clear :: _ => None
  | _ :: h' => def_cert h' k
  end.

(** names of keys and certificates of a non-empty identity *)
Definition a_key (k : name) : Prop := exists i kid, i <> [] /\ k = key_name i kid.
Definition a_cert (n : name) : Prop := exists i kid issuer version, i <> [] /\ n = cert_name i kid issuer version.
(** Calls with names that fit together *)
Definition sane (o : call) : Prop :=
  match o with
  | AddIdentity i | RemoveIdentity i | SetDefaultIdentity i => Forall c_valid i
  | Clear => True
  | AddKey i k _ => Forall c_valid k /\ i <> [] /\ exists kid, k = key_name i kid
  | SetDefaultKey i k => Forall c_valid k /\ i <> [] /\ exists kid, k = key_name i kid
  | RemoveKey k => Forall c_valid k /\ a_key k
  | AddCert c => Forall c_valid (ct_name c) /\ a_cert (ct_name c) /\ ct_check c = Ok tt
  | RemoveCert n => Forall c_valid n /\ a_cert n
  | SetDefaultCert k n => Forall c_valid n /\ a_cert n /\ owner n = k
  end.
(** does the call raise? *)
Definition outcome (h : list call) (o : call) : res unit :=
  match o with
  | SetDefaultKey _ k => match key_bits h k with Some _ => Ok tt | None => Err OtherError end
  | SetDefaultCert _ n => match cert h n with Some _ => Ok tt | None => Err OtherError end
  | _ => Ok tt
  end.
End S.
