(** * Model of the version 1 identity manager: python/pyndn/security/identity/identity_manager.py with
    identity_storage.py, memory_identity_storage.py and memory_private_key_storage.py

    A name is stored under its URI ([n_toUri]). Simplified: the storages hold copies of the names they
    are given (in the code getDefaultKeyNameForIdentity and getDefaultCertificateNameForKey return the
    stored object itself); [now] is a whole number of milliseconds; the constructor with a ConfigFile
    (62-80) is not modelled, nor are the storages BasicIdentityStorage and FilePrivateKeyStorage. Of
    the cryptography: [gen] is TpmPrivateKey.generatePrivateKey (with the randomness it draws), [derive] is
    derivePublicKey, [psign] is TpmPrivateKey.sign, [load_pkcs8] is loadPkcs8; each may raise. *)
From Verif Require Import Base NameModel UriModel BlobModel DictModel DerModel PkcsModel WireModel IcertModel.
Local Open Scope res_scope.
Notation str := (list Z).

Section Idm.
Variable P : Type.                                    (* TpmPrivateKey *)
Variable gen : Z -> Z -> Z -> res P.                    (* key type, key size, randomness *)
Variable derive : P -> res bytes.
Variable psign : P -> Z -> bytes -> res bytes.
Variable load_pkcs8 : bytes -> Z -> res P.
Variable load_public : bytes -> res unit.
Variable floor40 : Z -> Z.
Notation pk_new := (pk_new load_public floor40).

(** memory_identity_storage.py 36-47, identity_storage.py 336-337, memory_private_key_storage.py 36-41 *)
Record st : Type := St {
  ids : dict str (option name);                 (* the default key of each identity *)
  dflt : str;
  keys : dict str (Z * bytes * option name);     (* key type, DER, default certificate *)
  certs : dict str bytes;
  lastTs : Z;
  pubs : dict str publicKey;
  privs : dict str P }.
Definition st_init (start : Z) : st := St [] [] [] [] start [] [].
Definition set_ids v s := St v (dflt s) (keys s) (certs s) (lastTs s) (pubs s) (privs s).
Definition set_dflt v s := St (ids s) v (keys s) (certs s) (lastTs s) (pubs s) (privs s).
Definition set_keys v s := St (ids s) (dflt s) v (certs s) (lastTs s) (pubs s) (privs s).
Definition set_certs v s := St (ids s) (dflt s) (keys s) v (lastTs s) (pubs s) (privs s).
Definition set_last v s := St (ids s) (dflt s) (keys s) (certs s) v (pubs s) (privs s).
Definition set_pubs v s := St (ids s) (dflt s) (keys s) (certs s) (lastTs s) v (privs s).
Definition set_privs v s := St (ids s) (dflt s) (keys s) (certs s) (lastTs s) (pubs s) v.

(** The state is changed also when an exception is raised *)
Definition im (A : Type) : Type := st -> st * res A.
Definition ret {A} (a : A) : im A := fun s => (s, Ok a).
Definition raise {A} (e : exn) : im A := fun s => (s, Err e).
Definition lift {A} (r : res A) : im A := fun s => (s, r).
Definition bind {A B} (m : im A) (k : A -> im B) : im B := fun s => let '(s', r) := m s in match r with Ok a => k a s' | Err e => (s', Err e) end.
Definition get {A} (f : st -> res A) : im A := fun s => (s, f s).
Definition modify (f : st -> st) : im unit := fun s => (f s, Ok tt).
(** try: m except SecurityException: h *)
Definition try_ {A} (m h : im A) : im A := fun s => let '(s', r) := m s in match r with Err SecurityException => h s' | _ => (s', r) end.
Notation "x <~ m ;; k" := (bind m (fun x => k)) (at level 61, m at next level, right associativity).
Notation "m ;;; k" := (bind m (fun _ => k)) (at level 61, right associativity).

Definition uri (n : name) : str := n_toUri n false.
Notation sget := (dget zlist_eqb).
Notation sset := (dset zlist_eqb).
Notation sin := (din zlist_eqb).

(** ** MemoryIdentityStorage *)
(** memory_identity_storage.py 49-57, 81-89, 155-163 *)
Definition doesIdentityExist (n : name) (s : st) : bool := sin (ids s) (uri n).
Definition doesKeyExist (n : name) (s : st) : bool := sin (keys s) (uri n).
Definition doesCertificateExist (n : name) (s : st) : bool := sin (certs s) (uri n).
(** 59-69 *)
Definition addIdentity (n : name) (s : st) : st := if doesIdentityExist n s then s else set_ids (sset (ids s) (uri n) None) s.
(** 91-112 *)
Definition addKey (k : name) (t : Z) (b : bytes) : im unit := fun s =>
  if zlen k =? 0 then (s, Ok tt)
  else if doesKeyExist k s then (s, Ok tt)
  else match n_getSubName k 0 (Some (zlen k - 1)) with
       | Err e => (s, Err e)
       | Ok i => let s1 := addIdentity i s in (set_keys (sset (keys s1) (uri k) (t, b, None)) s1, Ok tt)
       end.
(** 114-133 *)
Definition getKey (k : name) (s : st) : res bytes :=
  if zlen k =? 0 then Err SecurityException
  else match sget (keys s) (uri k) with Some (_, b, _) => Ok b | None => Err SecurityException end.
(** 165-186; getPublicKeyName of a certificate without a name is None: None.size() raises
    AttributeError; getPublicKeyInfo() is the key, whose type and DER may be None *)
Definition st_addCertificate (c : cert) : im unit :=
  k <~ lift (match ic_publicKeyName c with Some k => Ok k | None => Err AttributeError end) ;;
  addKey k (match pk_type (ic_key c) with Some t => t | None => -1 end) (match pk_der (ic_key c) with Some d => d | None => [] end) ;;;
  e <~ get (fun s => Ok (doesCertificateExist (d_name (ic_data c)) s)) ;;
  if (e : bool) then ret tt
  else w <~ lift (encodeData (ic_data c)) ;; modify (fun s => set_certs (sset (certs s) (uri (d_name (ic_data c))) (fst w)) s).
(** A new IdentityCertificate *)
Definition cert_new : cert := ic_new (Data [] mi_empty None (SigRsa kl_empty vp_none None)).
(** 188-209 *)
Definition getCertificate (n : name) (s : st) : res cert :=
  match sget (certs s) (uri n) with
  | None => Err SecurityException
  | Some w => let '(c, r) := id_wireDecode load_public floor40 w cert_new in match r with Ok _ => Ok c | Err ValueError => Err SecurityException | Err e => Err e end
  end.
(** 225-237 *)
Definition getDefaultIdentity (s : st) : res name := if zlen (dflt s) =? 0 then Err SecurityException else n_set (dflt s).
(** 239-256 *)
Definition getDefaultKeyNameForIdentity (i : name) (s : st) : res name :=
  match sget (ids s) (uri i) with Some (Some k) => Ok k | Some None => Err SecurityException | None => Err SecurityException end.
(** 258-276 *)
Definition getDefaultCertificateNameForKey (k : name) (s : st) : res name :=
  match sget (keys s) (uri k) with Some (_, _, Some c) => Ok c | Some (_, _, None) => Err SecurityException | None => Err SecurityException end.
(** 278-290 *)
Definition setDefaultIdentity (i : name) (s : st) : st := if doesIdentityExist i s then set_dflt (uri i) s else set_dflt [] s.
(** 292-311; [check] empty stands for None and for an empty name *)
Definition setDefaultKeyNameForIdentity (k check : name) : im unit :=
  i <~ lift (n_getPrefix k (-1)) ;;
  if (0 <? zlen check) && negb (n_equals check i) then raise SecurityException
  else modify (fun s => if doesIdentityExist i s then set_ids (sset (ids s) (uri i) (Some k)) s else s).
(** 313-324 *)
Definition setDefaultCertificateNameForKey (k c : name) (s : st) : st :=
  match sget (keys s) (uri k) with Some (t, b, _) => set_keys (sset (keys s) (uri k) (t, b, Some c)) s | None => s end.
(** identity_storage.py 233-244 *)
Definition getDefaultCertificateNameForIdentity (i : name) (s : st) : res name := k <-- getDefaultKeyNameForIdentity i s ;; getDefaultCertificateNameForKey k s.
(** identity_storage.py 320-334: None if there is no default *)
Definition getDefaultCertificate (s : st) : res (option cert) :=
  match (i <-- getDefaultIdentity s ;; getDefaultCertificateNameForIdentity i s) with
  | Err _ => Ok None
  | Ok n => c <-- getCertificate n s ;; Ok (Some c)
  end.
(** identity_storage.py 61-87; the loop adds 1 to a whole number until it is more than the last *)
Definition ksk_text : str := [107; 115; 107; 45].
Definition dsk_text : str := [100; 115; 107; 45].
Definition getNewKeyName (i : name) (ksk : bool) (now : Z) : im name :=
  t <~ get (fun s => let t := now / 1000 in Ok (if t <=? lastTs s then lastTs s + 1 else t)) ;;
  modify (set_last t) ;;;
  let k := i ++ [c_generic ((if ksk then ksk_text else dsk_text) ++ str_int t)] in
  e <~ get (fun s => Ok (doesKeyExist k s)) ;;
  if (e : bool) then raise SecurityException else ret k.

(** ** MemoryPrivateKeyStorage *)
(** memory_private_key_storage.py 43-98: setKeyPairForKeyName *)
Definition setKeyPair (k : name) (t : Z) (pub priv : bytes) : im unit :=
  x <~ lift (pk_new pub) ;;
  modify (fun s => set_pubs (sset (pubs s) (uri k) x) s) ;;;
  p <~ lift (match load_pkcs8 priv t with Ok p => Ok p | Err _ => Err SecurityException end) ;;
  modify (fun s => set_privs (sset (privs s) (uri k) p) s).
(** 100-120 *)
Definition tpm_generate (k : name) (t size r : Z) : im unit :=
  p <~ lift (match gen t size r with Ok p => Ok p | Err _ => Err SecurityException end) ;;
  b <~ lift (match derive p with Ok b => Ok b | Err _ => Err SecurityException end) ;;
  modify (fun s => set_privs (sset (privs s) (uri k) p) s) ;;;
  x <~ lift (pk_new b) ;;
  modify (fun s => set_pubs (sset (pubs s) (uri k) x) s).
(** 140-154 *)
Definition tpm_getPublicKey (k : name) (s : st) : res publicKey := match sget (pubs s) (uri k) with Some x => Ok x | None => Err SecurityException end.
(** 156-181 *)
Definition tpm_sign (m : bytes) (k : name) (digest : Z) (s : st) : res bytes :=
  match sget (privs s) (uri k) with
  | None => Err SecurityException
  | Some p => match psign p digest m with Ok b => Ok b | Err _ => Err SecurityException end
  end.

(** ** IdentityManager *)
(** identity_manager.py 740-756 *)
Definition generateKeyPair (i : name) (ksk : bool) (t size r now : Z) : im name :=
  k <~ getNewKeyName i ksk now ;;
  tpm_generate k t size r ;;;
  x <~ get (tpm_getPublicKey k) ;;
  (* a null Blob is stored as one; it does not occur: the key was made from bytes *)
  addKey k t (match pk_der x with Some d => d | None => [] end) ;;;
  ret k.
(** 196-226, 252-288: generateRSAKeyPair, generateEcdsaKeyPair and ...AsDefault *)
Definition generateKeyPairAs (asDefault : bool) (i : name) (ksk : bool) (t size r now : Z) : im name :=
  k <~ generateKeyPair i ksk t size r now ;;
  if asDefault then setDefaultKeyNameForIdentity k [] ;;; ret k else ret k.
(** 290-298 *)
Definition getPublicKey (k : name) (s : st) : res publicKey := b <-- getKey k s ;; pk_new b.
(** 404-416 *)
Definition setDefaultCertificateForKey (c : cert) : im unit :=
  k <~ lift (match ic_publicKeyName c with Some k => Ok k | None => Err AttributeError end) ;;
  e <~ get (fun s => Ok (doesKeyExist k s)) ;;
  if negb e then raise SecurityException else modify (setDefaultCertificateNameForKey k (d_name (ic_data c))).
(** 418-429 *)
Definition addCertificateAsIdentityDefault (c : cert) : im unit :=
  st_addCertificate c ;;;
  k <~ lift (match ic_publicKeyName c with Some k => Ok k | None => Err AttributeError end) ;;
  setDefaultKeyNameForIdentity k [] ;;;
  setDefaultCertificateForKey c.
(** 431-440 *)
Definition addCertificateAsDefault (c : cert) : im unit := st_addCertificate c ;;; setDefaultCertificateForKey c.

(** 706-738; the digest algorithm is SHA256 (1) *)
Definition makeSignature (n : name) (s : st) : res signature :=
  k <-- certificateNameToPublicKeyName n ;;
  x <-- tpm_getPublicKey k s ;;
  p <-- n_getPrefix n (-1) ;;
  match pk_type x with
  | Some 0 => Ok (SigRsa (KL (Some 1) p None) vp_none None)
  | Some 1 => Ok (SigEcdsa (KL (Some 1) p None) vp_none None)
  | _ => Err SecurityException
  end.
Definition signed_part (x : bytes * (Z * Z)) : bytes := let '(w, (b, e)) := x in zslice w b e.
(** 513-549: signByCertificate of a Data; the packet with its signature is the result *)
Definition signData (d : data) (n : name) (s : st) : res data :=
  sg <-- makeSignature n s ;;
  e <-- encodeData (Data (d_name d) (d_meta d) (d_content d) sg) ;;
  k <-- certificateNameToPublicKeyName n ;;
  bits <-- tpm_sign (signed_part e) k 1 s ;;
  let d2 := Data (d_name d) (d_meta d) (d_content d) (sig_setBits sg (Some bits)) in
  _ <-- encodeData d2 ;; Ok d2.
(** 550-561: signByCertificate of a buffer *)
Definition signBuffer (m : bytes) (n : name) (s : st) : res signature :=
  sg <-- makeSignature n s ;; k <-- certificateNameToPublicKeyName n ;; bits <-- tpm_sign m k 1 s ;; Ok (sig_setBits sg (Some bits)).
(** 676-704 *)
Definition TWO_YEARS : Z := 2 * 365 * 24 * 3600 * 1000.
Definition the (m : cert -> cert * res unit) (c : cert) : res cert := let '(c', r) := m c in _ <-- r ;; Ok c'.
Definition certificateForKey (k : name) (now : Z) (s : st) : res cert :=
  b <-- getKey k s ;;
  x <-- pk_new b ;;
  p <-- n_getPrefix k (-1) ;;
  l <-- py_getitem k (-1) ;;
  v <-- c_fromVersion now ;;
  c <-- the (id_setName (p ++ [c_generic key_text; l; c_generic id_cert; v])) cert_new ;;
  text <-- utf8_encode (uri k) ;;
  ic_encode (add_subject (Subject (IsOid [2; 5; 4; 41]) text) (set_key x (set_notAfter (now + TWO_YEARS) (set_notBefore now c)))).
(** 663-674 *)
Definition selfSign (k : name) (now : Z) (s : st) : res cert :=
  c <-- certificateForKey k now s ;;
  d <-- signData (ic_data c) (d_name (ic_data c)) s ;;
  Ok (ic_setData c d).
(** 302-393 with the public key given; None is returned for names that are not accepted. Any error of
    encode becomes a SecurityException. *)
Definition prepareCertificate (k : name) (x : publicKey) (signing : name) (notBefore notAfter now : Z) (subjects : list subject) (certPrefix : option name) : res (option cert) :=
  if zlen k <? 1 then Ok None
  else
    l <-- py_getitem k (-1) ;;
    let text := c_toEscapedString l in
    if zlen text <? 4 then Ok None
    else if negb (zlist_eqb (firstn 4 text) ksk_text) && negb (zlist_eqb (firstn 4 text) dsk_text) then Ok None
    else
      let named (p suffix : name) : res (option name) := v <-- c_fromVersion now ;; Ok (Some (p ++ [c_generic key_text] ++ suffix ++ [c_generic id_cert; v])) in
      o <-- (match certPrefix with
             | None => if n_match signing k then suffix <-- n_getSubName k (zlen signing) None ;; named signing suffix
                       else p <-- n_getPrefix k (-1) ;; named p [l]
             | Some q => if n_match q k && negb (n_equals q k) then suffix <-- n_getSubName k (zlen q) None ;; named q suffix else Ok None
             end) ;;
      match o with
      | None => Ok None
      | Some n =>
          c <-- the (id_setName n) cert_new ;;
          let c := set_key x (set_notAfter notAfter (set_notBefore notBefore c)) in
          c <-- (if zlen subjects =? 0 then p <-- n_getPrefix k (-1) ;; text <-- utf8_encode (uri p) ;; Ok (add_subject (Subject (IsOid [2; 5; 4; 41]) text) c)
                 else Ok (fold_left (fun c s => add_subject s c) subjects c)) ;;
          match ic_encode c with Ok c => Ok (Some c) | Err _ => Err SecurityException end
      end.
(** 82-124 *)
Definition createIdentityAndCertificate (i : name) (t size r now now2 : Z) : im name :=
  modify (addIdentity i) ;;;
  o <~ try_ (k <~ get (getDefaultKeyNameForIdentity i) ;; x <~ get (getPublicKey k) ;; ret (match pk_type x with Some t' => if t' =? t then Some k else None | None => None end)) (ret None) ;;
  k <~ (match o with Some k => ret k | None => k <~ generateKeyPair i true t size r now ;; setDefaultKeyNameForIdentity k [] ;;; ret k end) ;;
  c <~ try_ (c <~ get (getDefaultCertificateNameForKey k) ;; ret (Some c)) (ret None) ;;
  match c with
  | Some n => ret n
  | None => x <~ get (selfSign k now2) ;; addCertificateAsIdentityDefault x ;;; ret (d_name (ic_data x))
  end.
(** 126-143 *)
Definition createIdentity (i : name) (t size r now now2 : Z) : im name :=
  n <~ createIdentityAndCertificate i t size r now now2 ;; lift (certificateNameToPublicKeyName n).
(** 145-166; getAllKeyNamesOfIdentity of MemoryIdentityStorage (identity_storage.py 268-277) raises *)
Definition deleteIdentity (i : name) : im unit := fun s =>
  match getDefaultIdentity s with
  | Ok n => if n_equals n i then (s, Ok tt) else (s, Err RuntimeError)
  | Err SecurityException => (s, Err RuntimeError)
  | Err e => (s, Err e)
  end.

(** ** Histories *)
Inductive op : Type :=
| OAddIdentity (i : name)
| OCreate (i : name) (t size r now now2 : Z)
| OGenerate (asDefault : bool) (i : name) (ksk : bool) (t size r now : Z)
| OSetKeyPair (k : name) (t : Z) (pub priv : bytes)
| OSetDefaultIdentity (i : name)
| OSetDefaultKey (k check : name)
| OSetDefaultCert (c : cert)
| OAddCert (c : cert)
| OAddCertIdentityDefault (c : cert)
| OAddCertDefault (c : cert)
| ODelete (i : name).
Definition unit_of {A} (m : im A) : im (option name) := m ;;; ret None.
Definition name_of (m : im name) : im (option name) := n <~ m ;; ret (Some n).
Definition perform (o : op) : im (option name) :=
  match o with
  | OAddIdentity i => unit_of (modify (addIdentity i))
  | OCreate i t size r now now2 => name_of (createIdentityAndCertificate i t size r now now2)
  | OGenerate d i ksk t size r now => name_of (generateKeyPairAs d i ksk t size r now)
  | OSetKeyPair k t pub priv => unit_of (setKeyPair k t pub priv)
  | OSetDefaultIdentity i => unit_of (modify (setDefaultIdentity i))
  | OSetDefaultKey k check => unit_of (setDefaultKeyNameForIdentity k check)
  | OSetDefaultCert c => unit_of (setDefaultCertificateForKey c)
  | OAddCert c => unit_of (st_addCertificate c)
  | OAddCertIdentityDefault c => unit_of (addCertificateAsIdentityDefault c)
  | OAddCertDefault c => unit_of (addCertificateAsDefault c)
  | ODelete i => unit_of (deleteIdentity i)
  end.
Fixpoint run (h : list op) (s : st) : st := match h with [] => s | o :: h' => run h' (fst (perform o s)) end.
End Idm.
