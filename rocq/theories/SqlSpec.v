(** * Specification of PibSqlite3, by the history of calls (the newest first), as in PibSpec *)
From Verif Require Import Base NameModel NameSpec DictModel WireModel WireSpec HierModel HierSpec PibModel PibSpec ChainModel SqlModel.

(** A name that can be encoded and decoded *)
Definition fits (n : name) : Prop := name_ok n /\ zlen (encodeName n) < 2 ^ 64.
(** A certificate that can be encoded and decoded *)
Definition storable (c : data) : Prop := fits (d_name c) /\ data_ok c /\ data_seen cert_blank c = c /\ zlen (data_bytes c) < 2 ^ 64.
(** Calls with names that fit together *)
Definition sql_sane (o : call data) : Prop :=
  sane x_name x_check o /\
  match o with
  | AddIdentity i | RemoveIdentity i | SetDefaultIdentity i => fits i
  | Clear => True
  | AddKey _ k _ | RemoveKey k | SetDefaultKey _ k => fits k
  | AddCert c => storable c
  | RemoveCert n | SetDefaultCert _ n => fits n
  end.
(** The default key of an identity: as in PibSpec, except that it is only forgotten when this key is
    removed *)
Fixpoint sql_def_key (h : list (call data)) (i : name) : option name :=
  match h with
  | [] => None
  | AddKey j k _ :: h' => match sql_def_key h' i with None => if name_dec j i then Some k else None | d => d end
  | AddCert c :: h' => match sql_def_key h' i with None => if name_dec (owner (owner (d_name c))) i then Some (owner (d_name c)) else None | d => d end
  | SetDefaultKey j k :: h' => if name_dec j i then match key_bits x_name x_content h' k with Some _ => Some k | None => sql_def_key h' i end else sql_def_key h' i
  | RemoveKey k :: h' => match sql_def_key h' i with Some d => if name_dec k d then None else Some d | None => None end
  | RemoveIdentity j :: h' => if name_dec j i then None else sql_def_key h' i
  | Clear :: _ => None
  | _ :: h' => sql_def_key h' i
  end.
Definition or_pib_error {A} (o : option A) : res A := match o with Some a => Ok a | None => Err OtherError end.
Definition is_some {A} (o : option A) : bool := match o with Some _ => true | None => false end.
(** The certificate that def_cert names *)
Definition the_def_cert (h : list (call data)) (k : name) : option data := match def_cert x_name h k with Some n => cert x_name h n | None => None end.
(** What a user sees of the database [d] *)
Definition answer {A} (d : db) (p : prog A) (r : res A) : Prop := perform p d = (d, r).
Definition tells (d : db) (h : list (call data)) : Prop :=
  (forall i, fits i -> answer d (p_hasIdentity i) (Ok (ident x_name h i))) /\
  answer d p_getDefaultIdentity (or_pib_error (def_id x_name h)) /\
  (forall k, fits k -> answer d (p_hasKey k) (Ok (is_some (key_bits x_name x_content h k)))) /\
  (forall k, fits k -> answer d (p_getKeyBits k) (or_pib_error (key_bits x_name x_content h k))) /\
  (forall i, fits i -> answer d (p_getDefaultKey i) (or_pib_error (sql_def_key h i))) /\
  (forall n, fits n -> answer d (p_hasCertificate n) (Ok (is_some (cert x_name h n)))) /\
  (forall n, fits n -> answer d (p_getCertificate n) (or_pib_error (cert x_name h n))) /\
  (forall k, fits k -> answer d (p_getDefaultCert k) (or_pib_error (the_def_cert h k))) /\
  (exists l, answer d p_getIdentities (Ok l) /\ forall i, In i l <-> fits i /\ ident x_name h i = true) /\
  (forall i, fits i -> exists l, answer d (p_getKeysOfIdentity i) (Ok l) /\ forall k, In k l <-> fits k /\ key_bits x_name x_content h k <> None /\ owner k = i) /\
  (forall k, fits k -> exists l, answer d (p_getCertificatesOfKey k) (Ok l) /\ forall n, In n l <-> fits n /\ cert x_name h n <> None /\ owner n = k).
(** ** What holds of the database whatever happened *)
Definition gives {A} (d : db) (p : prog A) : res A := snd (perform p d).
(** Every query gives an answer or Pib.Error, and the answers fit together. *)
Record consistent (d : db) : Prop := Consistent {
  c_def : gives d p_getDefaultIdentity = Err OtherError \/ exists i, gives d p_getDefaultIdentity = Ok i /\ gives d (p_hasIdentity i) = Ok true;
  c_bits : forall k, fits k -> gives d (p_hasKey k) = Ok true <-> exists b, gives d (p_getKeyBits k) = Ok b;
  c_ident : forall k, fits k -> gives d (p_hasKey k) = Ok true -> gives d (p_hasIdentity (owner k)) = Ok true;
  c_defkey : forall i, fits i -> gives d (p_getDefaultKey i) = Err OtherError \/ exists k, gives d (p_getDefaultKey i) = Ok k /\ owner k = i /\ gives d (p_hasKey k) = Ok true;
  c_cert : forall n, fits n -> gives d (p_hasCertificate n) = Ok true <-> exists c, gives d (p_getCertificate n) = Ok c /\ d_name c = n /\ x_check c = Ok tt;
  c_key : forall n, fits n -> gives d (p_hasCertificate n) = Ok true -> gives d (p_hasKey (owner n)) = Ok true;
  c_defcert : forall k, fits k -> gives d (p_getDefaultCert k) = Err OtherError \/ exists c, gives d (p_getDefaultCert k) = Ok c /\ owner (d_name c) = k /\ gives d (p_getCertificate (d_name c)) = Ok c;
  c_ids : exists l, gives d p_getIdentities = Ok l /\ NoDup l /\ forall i, In i l <-> fits i /\ gives d (p_hasIdentity i) = Ok true;
  c_keys : forall i, fits i -> exists l, gives d (p_getKeysOfIdentity i) = Ok l /\ NoDup l /\ forall k, In k l <-> fits k /\ owner k = i /\ gives d (p_hasKey k) = Ok true;
  c_certs : forall k, fits k -> exists l, gives d (p_getCertificatesOfKey k) = Ok l /\ NoDup l /\ forall n, In n l <-> fits n /\ owner n = k /\ gives d (p_hasCertificate n) = Ok true }.
(** No two rows have the same name, and of the rows of one parent at most one is the default. *)
Definition one_default (t : table) : Prop := NoDup (map r_name t) /\ forall r r', In r t -> In r' t -> r_scope r = r_scope r' -> r_def r = true -> r_def r' = true -> r = r'.
(** Each answer of [x] is that of [d] or that of [d']. *)
Definition either {A} (x d d' : db) (p : prog A) : Prop := gives x p = gives d p \/ gives x p = gives d' p.
Definition old_or_new (x d d' : db) : Prop :=
  (forall i, fits i -> either x d d' (p_hasIdentity i)) /\ either x d d' p_getDefaultIdentity /\
  (forall k, fits k -> either x d d' (p_hasKey k)) /\ (forall k, fits k -> either x d d' (p_getKeyBits k)) /\
  (forall i, fits i -> either x d d' (p_getDefaultKey i)) /\ (forall n, fits n -> either x d d' (p_hasCertificate n)) /\ (forall n, fits n -> either x d d' (p_getCertificate n)) /\
  (forall k, fits k -> either x d d' (p_getDefaultCert k)).
