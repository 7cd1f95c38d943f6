(** * Specification of DecryptorV2: requests and answers *)
From Verif Require Import Base NameModel NameSpec DictModel WireModel CtlModel HierModel PibModel PibSpec FrontModel BagModel ChainModel NacModel.

(** A request that names a content key (CK) and has an initial vector, and the CK it names *)
Definition usable (e : encryptedContent) : bool := match kl_type (ec_keyLocator e), ec_iv e with Some t, Some _ => t =? 1 | _, _ => false end.
Definition ck_of (e : encryptedContent) : name := kl_name (ec_keyLocator e).
(** The calls of decrypt, and the ids that expressInterest returned *)
Fixpoint requests (l : list event) : list (Z * encryptedContent) :=
  match l with [] => [] | EDecrypt r e _ :: l' => (r, e) :: requests l' | _ :: l' => requests l' end.
Definition id_of (o : event) : list Z :=
  match o with EDecrypt _ _ (Some i) | EData _ _ _ _ (Some i) | ETimeout _ (Some i) => [i] | _ => [] end.
Definition ids (l : list event) : list Z := flat_map id_of l.
(** The requests for the CK [k], in order *)
Definition wants (k : name) (x : Z * encryptedContent) : bool := usable (snd x) && (if name_dec (ck_of (snd x)) k then true else false).
Definition asks (l : list event) (k : name) : list (Z * encryptedContent) := filter (wants k) (requests l).
(** Requests are told apart, the Face returns new positive ids, and names are valid. *)
Definition proper (l : list event) : Prop :=
  NoDup (map fst (requests l)) /\ NoDup (ids l) /\ Forall (fun i => 0 < i) (ids l) /\ forall r e, In (r, e) (requests l) -> Forall c_valid (ck_of e).

(** The answers, and the Interests sent *)
Fixpoint answers (l : list out) : list (Z * outcome) :=
  match l with [] => [] | Answer r o :: l' => (r, o) :: answers l' | _ :: l' => answers l' end.
Fixpoint sends (l : list out) : list (name * bool * bool) :=
  match l with [] => [] | Send _ n c m :: l' => (n, c, m) :: sends l' | _ :: l' => sends l' end.
Definition answered (l : list out) (r : Z) : Prop := exists o, In (r, o) (answers l).
Definition failed (l : list out) (r : Z) : Prop := exists code, In (r, Failure code) (answers l).
(** The CK that an Interest is for *)
Definition pend_ck (p : pend) : name := match p with PCk k _ _ => k | PKdk k _ _ _ _ => k end.
Definition pend_request (p : pend) : Z := match p with PCk _ _ r => r | PKdk _ _ _ _ r => r end.
(** The Face has an Interest for the CK [k]. *)
Definition waiting {P} (s : dstate P) (k : name) : Prop := exists id p, In (id, p) (d_pend s) /\ pend_ck p = k.

(** The names: the CK Data is ck / ENCRYPTED-BY / identity / KEK / id; the KDK is identity / KEY / id,
    and its prefix is identity / KDK / id. *)
Definition ck_data_name (ck i : name) (c : comp) : name := ck ++ [N_ENCRYPTED_BY] ++ i ++ [N_KEK; c].
Definition kdk_key_name (i : name) (c : comp) : name := i ++ [KEY; c].
Definition kdk_data_name (i : name) (c : comp) (credentials : name) : name := i ++ [N_KDK; c; N_ENCRYPTED_BY] ++ credentials.

Section S.
Variable P : Type.
Variable load : bytes -> option bytes -> res P.
Variable pdec : P -> bytes -> res bytes.
Variable credentials : name.
(** The KDK [k] with the private key [p] comes from the KDK Data [d] *)
Definition kdk_from (d : data) (cred : bytes -> res (option bytes)) (k : name) (p : P) : Prop :=
  exists e w bag pk secret key k0, decode_content (d_content d) = Ok e /\ ec_payload e = Some w /\ sb_wireDecode w = Ok bag /\ ec_payloadKey e = Some pk /\ cred pk = Ok (Some secret) /\ sb_key bag = Some key /\
    load key (Some secret) = Ok p /\ cert_getKeyName (d_name (sb_certificate bag)) = Ok k0 /\ n_equals k0 k = true.
(** The bits of the CK of the CK Data [d] that some private key [p] with [K p] decrypts *)
Definition ck_from (d : data) (K : P -> Prop) (bits : bytes) : Prop := exists e c p, decode_content (d_content d) = Ok e /\ ec_payload e = Some c /\ K p /\ pdec p c = Ok bits.
(** The KDK [k] with [p] was received. *)
Definition kdk_got (l : list event) (k : name) (p : P) : Prop := exists id d cred rnd x, In (EData id d cred rnd x) l /\ kdk_from d cred k p.
(** The bits of the CK [k] were received. *)
Definition ck_got (l : list event) (k : name) (bits : bytes) : Prop :=
  exists id d cred rnd x i c, In (EData id d cred rnd x) l /\ n_equals (d_name d) (ck_data_name k i c) = true /\ ck_from d (kdk_got l (kdk_key_name i c)) bits.
(** The Interests with a reason *)
Definition reason (l : list event) (x : name * bool * bool) : Prop :=
  exists r e, In (r, e) (requests l) /\ usable e = true /\
    (x = (ck_of e, true, false) \/ exists id d cred rnd x' i c, In (EData id d cred rnd x') l /\ n_equals (d_name d) (ck_data_name (ck_of e) i c) = true /\ x = (kdk_data_name i c credentials, false, true)).
End S.
