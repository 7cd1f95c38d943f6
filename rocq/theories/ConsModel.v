(** * Model of the consumer of name-based access control (version 1).

    python/pyndn/encrypt/consumer.py 61-446, python/pyndn/encrypt/sqlite3_consumer_db.py 49-124.

    The ciphers are external libraries: [rsa_dec key payload] is RsaAlgorithm.decrypt with RSA-OAEP and
    [aes_dec key iv payload] is AesAlgorithm.decrypt with AES-CBC; both may raise.  [refuses n] tells
    whether Face.expressInterest raises for an Interest with the name [n] and this link.  A Link is its
    wire encoding, or None when it has no delegations; encoding it does not raise.  What
    KeyChain.verifyData finds out is an argument of the events.  The database does not fail by itself.
    onConsumeComplete and onError do not call the consumer back, and what they raise is caught (110, 441).
    The strings given to onError are left out. *)
From Verif Require Import Base NameModel DictModel WireModel CtlModel EncrModel.
Local Open Scope res_scope.

(** encrypt_error.py 48-56 *)
Definition E_General : Z := 200.
Definition E_Validation : Z := 1002.
Definition E_UnsupportedScheme : Z := 1032.
Definition E_InvalidFormat : Z := 1033.
Definition E_NoDecryptKey : Z := 1034.
Definition E_RetrievalFailure : Z := 1036.

(** A Data packet: its name and its content (None is a null Blob) *)
Record cdata : Type := CData { cd_name : name; cd_content : option bytes }.
(** What onVerified will do with the Data packet of an Interest: the closures of 107-114, 231-238 and
    280-286, and what they have captured: which consume it is, the content packet and its
    EncryptedContent, the EncryptedContent of the C-KEY packet and the D-KEY name *)
Inductive stage : Type :=
| ForContent
| ForCKey (d : cdata) (e : encryptedContent)
| ForDKey (d : cdata) (e e2 : encryptedContent) (dKeyName : name).
(** An Interest with the arguments of _sendInterest (351) *)
Record cint : Type := CInt { i_call : Z; i_name : name; i_link : option bytes; i_trials : Z; i_stage : stage }.
(** What the consumer does: expressInterest, onConsumeComplete, onError. [CWait]: verifyData has returned
    and will call back later. [CLogged]: verifyData caught what onVerified raised, and logged it. *)
Inductive cact : Type :=
| CExpress (i : cint) | CWait (i : cint) (d : cdata)
| CComplete (call : Z) (d : cdata) (plain : bytes) | CError (call : Z) (code : Z) | CLogged (call : Z).
(** [cs_db] is the table decryptionkeys: encoded key name, key. [cs_outs] is what the current call or
    callback has done. *)
Record cons : Type := Cons { cs_group : name; cs_ckeys : dict name bytes; cs_dkeys : dict name bytes; cs_db : dict bytes bytes; cs_outs : list cact }.

(** A method is a function of the state that changes it and returns or raises. *)
Definition cm (A : Type) : Type := cons -> cons * res A.
Definition cret {A} (a : A) : cm A := fun p => (p, Ok a).
Definition cbind {A B} (m : cm A) (k : A -> cm B) : cm B := fun p => match m p with (p', Ok a) => k a p' | (p', Err e) => (p', Err e) end.
Definition clift {A} (r : res A) : cm A := fun p => (p, r).
Notation "x <~ m ;; k" := (cbind m (fun x => k)) (at level 61, m at next level, right associativity).
Notation "m ;;; k" := (cbind m (fun _ => k)) (at level 61, right associativity).
Definition cget {A} (f : cons -> A) : cm A := fun p => (p, Ok (f p)).
Definition cemit (a : cact) : cm unit := fun p => (Cons (cs_group p) (cs_ckeys p) (cs_dkeys p) (cs_db p) (cs_outs p ++ [a]), Ok tt).
Definition put_group (g : name) : cm unit := fun p => (Cons g (cs_ckeys p) (cs_dkeys p) (cs_db p) (cs_outs p), Ok tt).
Definition put_ckeys (d : dict name bytes) : cm unit := fun p => (Cons (cs_group p) d (cs_dkeys p) (cs_db p) (cs_outs p), Ok tt).
Definition put_dkeys (d : dict name bytes) : cm unit := fun p => (Cons (cs_group p) (cs_ckeys p) d (cs_db p) (cs_outs p), Ok tt).
Definition put_db (d : dict bytes bytes) : cm unit := fun p => (Cons (cs_group p) (cs_ckeys p) (cs_dkeys p) d (cs_outs p), Ok tt).
(** try: m except: f *)
Definition ctry (m f : cm unit) : cm unit := fun p => match m p with (p', Ok u) => (p', Ok u) | (p', Err _) => f p' end.

(** sqlite3_consumer_db.py 60-84: getKey; a null Blob (size 0) when there is no such key *)
Definition getKey (n : name) : cm bytes := d <~ cget cs_db ;; cret (match dget zlist_eqb d (encodeName n) with Some k => k | None => [] end).
(** sqlite3_consumer_db.py 86-105: addKey, with the unique index of 39-41; bytearray(None) raises *)
Definition addKey (n : name) (k : option bytes) : cm unit :=
  d <~ cget cs_db ;;
  match k with
  | Some b => if din zlist_eqb d (encodeName n) then clift (Err OtherError) else put_db (d ++ [(encodeName n, b)])
  | None => clift (Err OtherError)
  end.
(** sqlite3_consumer_db.py 107-124: deleteKey *)
Definition deleteKey (n : name) : cm unit := d <~ cget cs_db ;; put_db (dremove zlist_eqb d (encodeName n)).

(** encrypted_content.py 241-260: wireDecode of a Blob; decoding a null Blob raises *)
Definition ec_wireDecode (b : option bytes) : res encryptedContent := match b with Some w => decodeEncryptedContent w | None => Err TypeError end.
(** consumer.py 264-267: the D-KEY name for the E-KEY name *)
Definition dkey_of (eKeyName : name) : res name :=
  p <-- n_getPrefix eKeyName (-3) ;;
  s <-- n_getSubName eKeyName (-2) None ;;
  Ok ((p ++ [N_D_KEY]) ++ s).

Section Consumer.
Variable rsa_dec : bytes -> bytes -> res bytes.
Variable aes_dec : bytes -> bytes -> bytes -> res bytes.
Variable refuses : name -> option bytes -> bool.
(** The arguments of the constructor *)
Variables consumerName : name.
Variables cKeyLink dKeyLink : option bytes.

(** consumer.py 61-76: the constructor, with a database that may exist already *)
Definition c_start (group : name) (db : dict bytes bytes) : cons := Cons group [] [] db [].

(** consumer.py 434-444: _callOnError, and the same written out *)
Definition fail (call code : Z) : cm unit := cemit (CError call code).

(** consumer.py 165-197: _decrypt with an EncryptedContent *)
Definition decrypt (e : encryptedContent) (key : bytes) (onPlainText : bytes -> cm unit) (call : Z) : cm unit :=
  let payload := match ec_payload e with Some b => b | None => [] end in
  match ec_algorithm e with
  | Some a =>
      if a =? ALG_AES_CBC then
        match (match ec_iv e with Some iv => aes_dec key iv payload | None => Err TypeError end) with
        | Ok m => onPlainText m
        | Err _ => fail call E_InvalidFormat
        end
      else if a =? ALG_RSA_OAEP then
        match rsa_dec key payload with
        | Ok m => onPlainText m
        | Err _ => fail call E_InvalidFormat
        end
      else fail call E_UnsupportedScheme
  | None => fail call E_UnsupportedScheme
  end.
(** consumer.py 159-163: _decrypt with a Blob *)
Definition decryptBlob (w key : bytes) (onPlainText : bytes -> cm unit) (call : Z) : cm unit :=
  e <~ clift (decodeEncryptedContent w) ;; decrypt e key onPlainText call.

(** consumer.py 351-419: _sendInterest *)
Definition sendInterest (i : cint) : cm unit :=
  if refuses (i_name i) (i_link i) then fail (i_call i) E_General else cemit (CExpress i).

(** consumer.py 109-113 *)
Definition onPlain (call : Z) (d : cdata) (m : bytes) : cm unit := cemit (CComplete call d m).
(** consumer.py 232-237 *)
Definition onCKey (call : Z) (d : cdata) (e : encryptedContent) (cKeyBits : bytes) : cm unit :=
  ks <~ cget cs_ckeys ;;
  put_ckeys (dset n_equals ks (kl_name (ec_keyLocator e)) cKeyBits) ;;;
  decrypt e cKeyBits (onPlain call d) call.
(** consumer.py 281-285 *)
Definition onDKey (call : Z) (d : cdata) (e e2 : encryptedContent) (dKeyName : name) (dKeyBits : bytes) : cm unit :=
  ks <~ cget cs_dkeys ;;
  put_dkeys (dset n_equals ks dKeyName dKeyBits) ;;;
  decrypt e2 dKeyBits (onCKey call d e) call.

(** consumer.py 199-239: _decryptContent *)
Definition decryptContent (call : Z) (d : cdata) : cm unit :=
  match ec_wireDecode (cd_content d) with
  | Err _ => fail call E_InvalidFormat
  | Ok e =>
      let cKeyName := kl_name (ec_keyLocator e) in
      ks <~ cget cs_ckeys ;;
      match dget n_equals ks cKeyName with
      | Some cKey => decrypt e cKey (onPlain call d) call
      | None =>
          g <~ cget cs_group ;;
          sendInterest (CInt call ((cKeyName ++ [N_FOR]) ++ g) cKeyLink 1 (ForCKey d e))
      end
  end.
(** consumer.py 241-287: _decryptCKey *)
Definition decryptCKey (call : Z) (d : cdata) (e : encryptedContent) (cKeyData : cdata) : cm unit :=
  match ec_wireDecode (cd_content cKeyData) with
  | Err _ => fail call E_InvalidFormat
  | Ok e2 =>
      dKeyName <~ clift (dkey_of (kl_name (ec_keyLocator e2))) ;;
      ks <~ cget cs_dkeys ;;
      match dget n_equals ks dKeyName with
      | Some dKey => decrypt e2 dKey (onCKey call d e) call
      | None => sendInterest (CInt call ((dKeyName ++ [N_FOR]) ++ consumerName) dKeyLink 1 (ForDKey d e e2 dKeyName))
      end
  end.
(** consumer.py 289-349: _decryptDKey; [buf()[n:]] is the bytes from [n] on *)
Definition decryptDKey (call : Z) (d : cdata) (e e2 : encryptedContent) (dKeyName : name) (dKeyData : cdata) : cm unit :=
  match ec_wireDecode (cd_content dKeyData) with
  | Err _ => fail call E_InvalidFormat
  | Ok encryptedNonce =>
      consumerKey <~ getKey (kl_name (ec_keyLocator encryptedNonce)) ;;
      if zlen consumerKey =? 0 then fail call E_NoDecryptKey
      else
        w <~ clift (encodeEncryptedContent encryptedNonce) ;;
        let content := match cd_content dKeyData with Some b => b | None => [] end in
        let encryptedPayload := zslice content (zlen w) (zlen content) in
        if zlen encryptedPayload =? 0 then fail call E_InvalidFormat
        else
          decrypt encryptedNonce consumerKey
            (fun nonceKeyBits => decryptBlob encryptedPayload nonceKeyBits (onDKey call d e e2 dKeyName) call) call
  end.

(** onVerified of the Interest [i] *)
Definition onVerified (i : cint) (d : cdata) : cm unit :=
  match i_stage i with
  | ForContent => decryptContent (i_call i) d
  | ForCKey d0 e => decryptCKey (i_call i) d0 e d
  | ForDKey d0 e e2 n => decryptDKey (i_call i) d0 e e2 n d
  end.
(** key_chain.py 1149-1207: verifyData calls onVerified (which it guards), calls onValidationFailed,
    does neither yet, or raises *)
Inductive verdict : Type := Accept | Reject | Later | Raise.
Definition verifyData (i : cint) (d : cdata) (v : verdict) : cm unit :=
  match v with
  | Accept => ctry (onVerified i d) (cemit (CLogged (i_call i)))
  | Reject => fail (i_call i) E_Validation
  | Later => cemit (CWait i d)
  | Raise => fail (i_call i) E_General
  end.
(** consumer.py 397-401: onTimeout *)
Definition onTimeout (i : cint) : cm unit :=
  if 0 <? i_trials i then sendInterest (CInt (i_call i) (i_name i) (i_link i) (i_trials i - 1) (i_stage i))
  else fail (i_call i) E_RetrievalFailure.
(** consumer.py 389-395: onNetworkNack *)
Definition onNetworkNack (i : cint) : cm unit := fail (i_call i) E_RetrievalFailure.
(** consumer.py 78-116: consume *)
Definition consume (call : Z) (n : name) (link : option bytes) : cm unit := sendInterest (CInt call n link 1 ForContent).
(** consumer.py 127-141: addDecryptionKey *)
Definition addDecryptionKey (n : name) (k : option bytes) : cm unit :=
  if negb (n_match consumerName n) then clift (Err RuntimeError) else addKey n k.

(** ** Histories: calls of the application, callbacks of the Face, and of verifyData when it is late *)
Inductive cevent : Type :=
| Consume (call : Z) (n : name) (link : option bytes)
| SetGroup (g : name) | AddKey (n : name) (k : option bytes) | DeleteKey (n : name)
| GotData (i : cint) (d : cdata) (v : verdict) | Verified (i : cint) (d : cdata) (good : bool)
| TimedOut (i : cint) | Nacked (i : cint).
Definition cact_of (e : cevent) : cm unit :=
  match e with
  | Consume call n link => consume call n link
  | SetGroup g => put_group g
  | AddKey n k => addDecryptionKey n k
  | DeleteKey n => deleteKey n
  | GotData i d v => verifyData i d v
  | Verified i d good => verifyData i d (if (good : bool) then Accept else Reject)
  | TimedOut i => onTimeout i
  | Nacked i => onNetworkNack i
  end.
Definition cbegin (p : cons) : cons := Cons (cs_group p) (cs_ckeys p) (cs_dkeys p) (cs_db p) [].
Definition cstep (p : cons) (e : cevent) : cons * res unit := cact_of e (cbegin p).
Definition cafter (group : name) (db : dict bytes bytes) (l : list cevent) : cons := fold_left (fun p e => fst (cstep p e)) l (c_start group db).
End Consumer.
