(** * Model of TpmPrivateKey (python/pyndn/security/tpm/tpm_private_key.py) and of the encoding of
    SafeBag

    Of the cryptography package nothing is modelled: [K] are its private key objects, [load_der] is
    serialization.load_der_private_key without a password (it may raise), [to_der] is private_bytes
    in DER PKCS #8, [pbkdf2 length salt iterations password] is PBKDF2HMAC with SHA-1 (it may
    raise), [des key iv] and [des_inv key iv] are the encryptor and the decryptor of Cipher
    (TripleDES, CBC) (they may raise).  Random numbers are arguments.  TpmPrivateKey.Error is
    [RuntimeError]; DerDecodingException is [OtherError]. *)
From Verif Require Import Base BlobModel UriModel DerModel.
Local Open Scope res_scope.

(** security_types.py *)
Definition TK_RSA : Z := 0.
Definition TK_EC : Z := 1.
(** tpm_private_key.py 552-557 *)
Definition RSA_ENCRYPTION_OID : list Z := [1; 2; 840; 113549; 1; 1; 1].
Definition EC_ENCRYPTION_OID : list Z := [1; 2; 840; 10045; 2; 1].
Definition PBES2_OID : list Z := [1; 2; 840; 113549; 1; 5; 13].
Definition PBKDF2_OID : list Z := [1; 2; 840; 113549; 1; 5; 12].
Definition DES_EDE3_CBC_OID : list Z := [1; 2; 840; 113549; 3; 7].
Definition DES_EDE3_KEY_LENGTH : Z := 24.

(** What toVal of a DerNode can return: a bool, an int, a str (its code points), a bytearray, the
    Blob of the encoding, a float *)
Inductive pyval : Type := PBool (b : bool) | PInt (n : Z) | PStr (s : list Z) | PBytes (b : bytes) | PBlob (b : bytes) | PFloat (ms : Z).
(** der_node.py 187-193, 363-369, 384-386, 418-427, 545-561, 583-588, 617-628: toVal *)
Definition node_toVal (floor40 : Z -> Z) (n : node) : res pyval :=
  match n with
  | Leaf t _ p =>
      if t =? T_BOOLEAN then b <-- boolean_toVal p ;; Ok (PBool b)
      else if t =? T_INTEGER then i <-- integer_toVal p ;; Ok (PInt i)
      else if t =? T_OCTETSTRING then Ok (PBytes p)
      else if t =? T_OID then l <-- oid_toVal floor40 p ;; Ok (PStr (oid_str l))
      else if t =? T_PRINTABLE then Ok (PStr p)
      else if t =? T_TIME then m <-- time_toVal p ;; Ok (PFloat m)
      else Ok (PBlob (snd (node_encode n)))
  | Seq _ _ _ _ => Ok (PBlob (snd (node_encode n)))
  end.
(** blob.py 46-82, 155-173: Blob(value, False).toBytes().  A list of zeros has the length of an int
    (that there may not be so much memory is not modelled). *)
Definition blob_bytes (v : pyval) : res bytes :=
  match v with
  | PBytes b | PBlob b => Ok b
  | PStr s => utf8_encode s
  | PInt n => if n <? 0 then Err ValueError else Ok (repeat 0 (Z.to_nat n))
  | PBool b => Ok (if b then [0] else [])
  | PFloat _ => Err TypeError
  end.
(** der_node.py 203-211, 263-268: getChildren; 213-235: getSequence; a list index *)
Definition getChildren (n : node) : res (list node) := match n with Seq _ _ _ l => Ok l | Leaf _ _ _ => Err OtherError end.
Definition getSequence (l : list node) (i : nat) : res node := match nth_error l i with Some (Seq a b c d) => Ok (Seq a b c d) | _ => Err OtherError end.
Definition item {A} (l : list A) (i : nat) : res A := match nth_error l i with Some x => Ok x | None => Err IndexError end.
(** try ... except Exception as ex: raise TpmPrivateKey.Error *)
Definition or_error {A} (r : res A) : res A := match r with Ok a => Ok a | Err _ => Err RuntimeError end.
(** ["text" + value] in an error message *)
Definition error_with (v : pyval) : exn := match v with PStr _ => RuntimeError | _ => TypeError end.
Definition is_oid_str (v : pyval) (oid : list Z) : bool := match v with PStr s => zlist_eqb s (oid_str oid) | _ => false end.

Section Key.
Variable K : Type.
Variable load_der : bytes -> res K.
Variable to_der : K -> bytes.
Variable pbkdf2 : Z -> bytes -> Z -> bytes -> res bytes.
Variable des des_inv : bytes -> bytes -> bytes -> res bytes.
Variable floor40 : Z -> Z.
Notation node_toVal := (node_toVal floor40).

(** tpm_private_key.py 51-53: a TpmPrivateKey that is loaded *)
Record tkey : Type := TKey { tk_type : Z; tk_key : K }.

(** tpm_private_key.py 148-155, 104-112 *)
Definition load_typed (encoding : bytes) (keyType : Z) : res tkey :=
  if (keyType =? TK_EC) || (keyType =? TK_RSA) then k <-- load_der encoding ;; Ok (TKey keyType k) else Err RuntimeError.
(** tpm_private_key.py 65-112: loadPkcs1 *)
Definition is_integer (n : node) : bool := match n with Leaf t _ _ => t =? T_INTEGER | Seq _ _ _ _ => false end.
Definition pkcs1_type (encoding : bytes) : res Z :=
  match
    (n <-- node_parse encoding 0 ;;
     l <-- getChildren n ;;
     match l with
     | c0 :: r =>
         if (zlen l =? 9) && is_integer c0 then
           v <-- node_toVal c0 ;;
           Ok (match v with PInt 0 => forallb is_integer r | _ => false end)
         else Ok false
     | [] => Ok false
     end)
  with
  | Ok true => Ok TK_RSA
  | Ok false => Ok TK_EC
  | Err OtherError => Ok TK_EC
  | Err e => Err e
  end.
Definition loadPkcs1 (encoding : bytes) (keyType : option Z) : res tkey :=
  t <-- (match keyType with Some t => Ok t | None => pkcs1_type encoding end) ;; load_typed encoding t.
(** tpm_private_key.py 114-155: loadPkcs8 *)
Definition pkcs8_oid (encoding : bytes) : res (list Z) :=
  or_error
    (n <-- node_parse encoding 0 ;;
     pkcs8Children <-- getChildren n ;;
     s <-- getSequence pkcs8Children 1 ;;
     algorithmIdChildren <-- getChildren s ;;
     c <-- item algorithmIdChildren 0 ;;
     v <-- node_toVal c ;;
     match v with PStr s => Ok s | _ => Err TypeError end).
Definition loadPkcs8 (encoding : bytes) (keyType : option Z) : res tkey :=
  t <-- (match keyType with
         | Some t => Ok t
         | None =>
             o <-- pkcs8_oid encoding ;;
             if zlist_eqb o (oid_str EC_ENCRYPTION_OID) then Ok TK_EC
             else if zlist_eqb o (oid_str RSA_ENCRYPTION_OID) then Ok TK_RSA
             else Err RuntimeError
         end) ;;
  load_typed encoding t.
(** tpm_private_key.py 260-269: remove the padding *)
Definition unpad (b : bytes) : res bytes :=
  match rev b with
  | [] => Err IndexError
  | padLength :: _ => Ok (if padLength =? 0 then [] else firstn (length b - Z.to_nat padLength) b)
  end.
(** tpm_private_key.py 174-188 *)
Definition read_info (encoding : bytes) : res (pyval * node * pyval) :=
  or_error
    (n <-- node_parse encoding 0 ;;
     children <-- getChildren n ;;
     s <-- getSequence children 0 ;;
     algorithmIdChildren <-- getChildren s ;;
     c0 <-- item algorithmIdChildren 0 ;; oid <-- node_toVal c0 ;;
     parameters <-- item algorithmIdChildren 1 ;;
     c1 <-- item children 1 ;; encryptedKey <-- node_toVal c1 ;;
     Ok (oid, parameters, encryptedKey)).
(** tpm_private_key.py 196-210 *)
Definition read_pbes2 (parameters : node) : res (pyval * node * (pyval * node)) :=
  or_error
    (l <-- getChildren parameters ;;
     kd <-- getSequence l 0 ;; kdl <-- getChildren kd ;;
     k0 <-- item kdl 0 ;; kdOid <-- node_toVal k0 ;; kdParameters <-- item kdl 1 ;;
     es <-- getSequence l 1 ;; esl <-- getChildren es ;;
     e0 <-- item esl 0 ;; esOid <-- node_toVal e0 ;; esParameters <-- item esl 1 ;;
     Ok (kdOid, kdParameters, (esOid, esParameters))).
(** tpm_private_key.py 218-224 *)
Definition read_pbkdf2 (parameters : node) : res (pyval * pyval) :=
  or_error
    (l <-- getChildren parameters ;;
     c0 <-- item l 0 ;; salt <-- node_toVal c0 ;;
     c1 <-- item l 1 ;; nIterations <-- node_toVal c1 ;;
     Ok (salt, nIterations)).
(** tpm_private_key.py 157-282: loadEncryptedPkcs8.  The count of iterations must be an int (a
    bool, which Python takes for an int, is refused here). *)
Definition loadEncryptedPkcs8 (encoding : bytes) (password : bytes) : res tkey :=
  x <-- read_info encoding ;;
  let '(oid, parameters, encryptedKey) := x in
  if is_oid_str oid PBES2_OID then
    y <-- read_pbes2 parameters ;;
    let '(kdOid, kdParameters, (esOid, esParameters)) := y in
    if is_oid_str kdOid PBKDF2_OID then
      z <-- read_pbkdf2 kdParameters ;;
      let '(salt, nIterations) := z in
      if is_oid_str esOid DES_EDE3_CBC_OID then
        salt <-- blob_bytes salt ;;
        nIterations <-- (match nIterations with PInt n => Ok n | _ => Err TypeError end) ;;
        derivedKey <-- pbkdf2 DES_EDE3_KEY_LENGTH salt nIterations password ;;
        initialVector <-- or_error (node_toVal esParameters) ;;
        pkcs8Encoding <-- or_error (iv <-- blob_bytes initialVector ;; c <-- blob_bytes encryptedKey ;; m <-- des_inv derivedKey iv c ;; unpad m) ;;
        loadPkcs8 pkcs8Encoding None
      else Err (error_with esOid)
    else Err (error_with kdOid)
  else Err (error_with oid).
(** tpm_private_key.py 394-410: toPkcs8 *)
Definition toPkcs8 (k : tkey) : bytes := to_der (tk_key k).
(** tpm_private_key.py 373-392: toPkcs1; getPayload is the payload of any node (a sequence has none) *)
Definition getPayload (n : node) : bytes := match n with Leaf _ _ p => p | Seq _ _ _ _ => [] end.
Definition toPkcs1 (k : tkey) : res bytes :=
  or_error (n <-- node_parse (toPkcs8 k) 0 ;; l <-- getChildren n ;; c <-- item l 2 ;; Ok (getPayload c)).
(** tpm_private_key.py 447-452: the padding *)
Definition pad16 (m : bytes) : bytes := let padLength := 16 - zlen m mod 16 in m ++ repeat padLength (Z.to_nat padLength).
(** tpm_private_key.py 466-496: the nodes, with DerOid(str) *)
Definition add (s : node) (c : node) : node := addChild s c.
Definition new_seq : node := Seq [] 0 false [].
Definition info_node (salt : bytes) (nIterations : Z) (initialVector encryptedEncoding : bytes) : res node :=
  n <-- der_integer nIterations ;;
  let keyDerivationParameters := add (add new_seq (der_byteString T_OCTETSTRING salt)) n in
  o1 <-- der_oid PBKDF2_OID ;;
  let keyDerivationAlgorithmIdentifier := add (add new_seq o1) keyDerivationParameters in
  o2 <-- der_oid DES_EDE3_CBC_OID ;;
  let encryptionSchemeAlgorithmIdentifier := add (add new_seq o2) (der_byteString T_OCTETSTRING initialVector) in
  let encryptedKeyParameters := add (add new_seq keyDerivationAlgorithmIdentifier) encryptionSchemeAlgorithmIdentifier in
  o3 <-- der_oid PBES2_OID ;;
  let encryptedKeyAlgorithmIdentifier := add (add new_seq o3) encryptedKeyParameters in
  Ok (add (add new_seq encryptedKeyAlgorithmIdentifier) (der_byteString T_OCTETSTRING encryptedEncoding)).
(** tpm_private_key.py 412-499: toEncryptedPkcs8; [salt] and [iv] are 8 random bytes each *)
Definition toEncryptedPkcs8 (k : tkey) (password salt iv : bytes) : res bytes :=
  derivedKey <-- pbkdf2 DES_EDE3_KEY_LENGTH salt 2048 password ;;
  encryptedEncoding <-- or_error (des derivedKey iv (pad16 (toPkcs8 k))) ;;
  or_error (n <-- info_node salt 2048 iv encryptedEncoding ;; Ok (snd (node_encode n))).
End Key.
Arguments tk_type {K} _.
Arguments tk_key {K} _.
Arguments TKey {K} _ _.
