(** * Model of DecryptorV2 (python/pyndn/encrypt), with what EncryptorV2 and AccessManagerV2 share

    The cryptography is not modelled, as in ChainModel; moreover [pdec p c] is the RSA-OAEP
    decryption by a private key (TpmPrivateKey.decrypt, which may raise), [penc r b m] is the
    RSA-OAEP encryption by the public key with the encoding [b] (PublicKey.encrypt, which may raise)
    with the randomness [r], and [cbc key iv] and [cbc_inv key iv] are the encryptor and the decryptor
    of Cipher(AES, CBC), which may raise.  Random numbers, clocks and what the Face answers are
    arguments of the calls.

    The callbacks of the user are events in the output; they do not raise, and a call they make comes
    after the callback that makes it. *)
From Verif Require Import Base NameModel DictModel WireModel CtlModel HierModel PibModel FrontModel BagModel ChainModel.
Local Open Scope sm_scope.

(** encryptor_v2.py 303-307 *)
Definition N_ENCRYPTED_BY : comp := c_generic [69;78;67;82;89;80;84;69;68;45;66;89].
Definition N_NAC : comp := c_generic [78;65;67].
Definition N_KEK : comp := c_generic [75;69;75].
Definition N_KDK : comp := c_generic [75;68;75].
Definition N_CK : comp := c_generic [67;75].
(** encryptor_v2.py 314 *)
Definition N_RETRIES : Z := 3.
(** encrypt_error.py 28-56 *)
Definition E_KekRetrievalFailure : Z := 1.
Definition E_KekRetrievalTimeout : Z := 2.
Definition E_KekInvalidName : Z := 3.
Definition E_KdkRetrievalFailure : Z := 11.
Definition E_KdkRetrievalTimeout : Z := 12.
Definition E_CkRetrievalFailure : Z := 21.
Definition E_CkRetrievalTimeout : Z := 22.
Definition E_CkInvalidName : Z := 23.
Definition E_MissingRequiredKeyLocator : Z := 101.
Definition E_TpmKeyNotFound : Z := 102.
Definition E_EncryptionFailure : Z := 103.
Definition E_DecryptionFailure : Z := 104.
Definition E_MissingRequiredInitialVector : Z := 110.
Definition E_General : Z := 200.
Definition E_InvalidEncryptedFormat : Z := 1033.

(** aes_algorithm.py 97-105: remove the padding *)
Definition aes_unpad (b : bytes) : res bytes :=
  match rev b with [] => Err IndexError | p :: _ => Ok (if p =? 0 then [] else firstn (length b - Z.to_nat p) b) end.
(** aes_algorithm.py 120-125, 139: add the padding *)
Definition aes_pad (m : bytes) : bytes := let p := 16 - zlen m mod 16 in m ++ repeat p (Z.to_nat p).
(** blob.py 106-120: toBytes; a null Blob raises *)
Definition to_bytes (b : option bytes) : res bytes := match b with Some x => Ok x | None => Err TypeError end.
(** encrypted_content.py 262-281: wireDecodeV2 of a Blob *)
Definition decode_content (b : option bytes) : res encryptedContent := rbind (to_bytes b) decodeEncryptedContentV2.

(** decryptor_v2.py 400-419: _convertKekNameToKdkPrefix *)
Definition kdk_prefix (kek : name) : res (option name) :=
  if zlen kek <? 2 then Ok None
  else rbind (py_getitem kek (-2)) (fun c => if negb (c_equals c N_KEK) then Ok None
    else rbind (n_getPrefix kek (-2)) (fun p => rbind (py_getitem kek (-1)) (fun l => Ok (Some (p ++ [N_KDK] ++ [l]))))).
Inductive kdkinfo : Type := BadName (code : Z) | KdkInfo (prefix identity key : name).
(** decryptor_v2.py 421-462: _extractKdkInfoFromCkName *)
Definition kdk_info (ckData ck : name) : res kdkinfo :=
  let bad := Ok (BadName E_CkInvalidName) in
  if zlen ckData <? zlen ck + 1 then bad
  else rbind (n_getPrefix ckData (zlen ck)) (fun p => if negb (n_equals p ck) then bad
  else rbind (py_getitem ckData (zlen ck)) (fun c => if negb (c_equals c N_ENCRYPTED_BY) then bad
  else rbind (n_getSubName ckData (zlen ck + 1) None) (fun kek =>
       rbind (kdk_prefix kek) (fun o =>
       match o with
       | None => Ok (BadName E_KekInvalidName)
       | Some pre => rbind (n_getPrefix kek (-2)) (fun i => rbind (py_getitem kek (-1)) (fun l => Ok (KdkInfo pre i (i ++ [KEY] ++ [l]))))
       end)))).
(** decryptor_v2.py 266-268: the name of the KDK from its prefix *)
Definition kdk_key_of (prefix : name) : res name := rbind (n_getPrefix prefix (-2)) (fun i => rbind (py_getitem prefix (-1)) (fun l => Ok (i ++ [KEY] ++ [l]))).

Section Nac.
Variable P : Type.
Variable derive : P -> bytes.
Variable psign : Z -> P -> bytes -> bytes.
Variable pverify : bytes -> bytes -> bytes -> res bool.
Variable ktype : bytes -> res Z.
Variable sha : bytes -> bytes.
Variable load : bytes -> option bytes -> res P.
Variable dump : P -> option bytes -> bytes.
Variable ord : list name -> list name.
Variable pdec : P -> bytes -> res bytes.
Variable penc : Z -> bytes -> bytes -> res bytes.
Variable cbc cbc_inv : bytes -> bytes -> bytes -> res bytes.
Notation kstate := (kstate P).
Notation km := (sm kstate).

(** tpm.py 120-136: decrypt, with tpm_key_handle_memory.py 66-78; a null Blob if there is no key *)
Definition tpm_decrypt (c : bytes) (k : name) : km (option bytes) :=
  p <~ tpm_find P k ;; match p with None => ret None | Some p => m <~ lift (pdec p c) ;; ret (Some m) end.
(** aes_algorithm.py 107-140: encrypt with AES-CBC; 74-105: decrypt *)
Definition aes_encrypt (key iv m : bytes) : res bytes := cbc key iv (aes_pad m).
Definition aes_decrypt (key iv c : bytes) : res bytes := rbind (cbc_inv key iv c) aes_unpad.

(** ** DecryptorV2 *)
Inductive outcome : Type := Success (plain : bytes) | Failure (code : Z).
Inductive out : Type := Answer (request : Z) (o : outcome) | Send (id : Z) (n : name) (canBePrefix mustBeFresh : bool).
(** decryptor_v2.py 137-153: ContentKey; [ck_bits] is None until isRetrieved *)
Record ckey : Type := CKey { ck_bits : option bytes; ck_pending : Z; ck_queue : list (Z * encryptedContent) }.
(** The Interests that the Face has, with their callbacks.  A callback knows the request whose
    onError it calls. *)
Inductive pend : Type := PCk (ck : name) (tries : Z) (request : Z) | PKdk (ck prefix : name) (ckData : data) (tries : Z) (request : Z).
Record dstate : Type := DState { d_keys : dict name ckey; d_pend : dict Z pend; d_chain : kstate; d_out : list out }.
(** decryptor_v2.py 53-65 *)
Definition d_new (chain : kstate) : dstate := DState [] [] chain [].
(** self._credentialsKey.getName() *)
Variable credentials : name.
Notation dm := (sm dstate).
Definition inchain {A} (m : km A) : dm A := fun s => let (c, r) := m (d_chain s) in (DState (d_keys s) (d_pend s) c (d_out s), r).
Definition emit (o : out) : dm unit := put (fun s => DState (d_keys s) (d_pend s) (d_chain s) (d_out s ++ [o])).
Definition fail (r code : Z) : dm unit := emit (Answer r (Failure code)).
Definition set_key (k : name) (c : ckey) : dm unit := put (fun s => DState (dset n_equals (d_keys s) k c) (d_pend s) (d_chain s) (d_out s)).
Definition the_ck (k : name) : dm ckey := get (fun s => match dget n_equals (d_keys s) k with Some c => c | None => CKey None 0 [] end).
Definition set_pending (k : name) (id : Z) : dm unit := c <~ the_ck k ;; set_key k (CKey (ck_bits c) id (ck_queue c)).
(** expressInterest: [x] is the id it returns, or None if it raises (decryptor_v2.py 229-235, 291-297) *)
Definition express (x : option Z) (k : name) (p : pend) (n : name) (canBePrefix mustBeFresh : bool) (r : Z) : dm unit :=
  match x with
  | None => fail r E_General
  | Some id => put (fun s => DState (d_keys s) (dset Z.eqb (d_pend s) id p) (d_chain s) (d_out s)) ;;; emit (Send id n canBePrefix mustBeFresh) ;;; set_pending k id
  end.
(** decryptor_v2.py 155-235: _fetchCk, the request *)
Definition fetch_ck (k : name) (tries r : Z) (x : option Z) : dm unit := express x k (PCk k tries r) k true false r.
(** decryptor_v2.py 237-297: _fetchKdk, the request *)
Definition kdk_name (prefix : name) : name := prefix ++ [N_ENCRYPTED_BY] ++ credentials.
Definition fetch_kdk (k prefix : name) (ckData : data) (tries r : Z) (x : option Z) : dm unit :=
  express x k (PKdk k prefix ckData tries r) (kdk_name prefix) false true r.
(** decryptor_v2.py 370-398: _doDecrypt *)
Definition do_decrypt (e : encryptedContent) (bits : bytes) : outcome :=
  match ec_iv e with
  | None => Failure E_MissingRequiredInitialVector
  | Some iv => match rbind (to_bytes (ec_payload e)) (aes_decrypt bits iv) with Ok m => Success m | Err _ => Failure E_DecryptionFailure end
  end.
Fixpoint answer_all (bits : bytes) (l : list (Z * encryptedContent)) : dm unit :=
  match l with [] => ret tt | (r, e) :: l' => emit (Answer r (do_decrypt e bits)) ;;; answer_all bits l' end.
(** decryptor_v2.py 331-368: _decryptCkAndProcessPendingDecrypts *)
Definition decrypt_ck (k : name) (ckData : data) (kdk : name) (r : Z) : dm unit :=
  match decode_content (d_content ckData) with
  | Err _ => fail r E_InvalidEncryptedFormat
  | Ok e =>
      o <~ catch any_exn (c <~ lift (to_bytes (ec_payload e)) ;; b <~ inchain (tpm_decrypt c kdk) ;; ret (Some b)) (ret None) ;;
      match o with
      | None => fail r E_DecryptionFailure
      | Some None => fail r E_TpmKeyNotFound
      | Some (Some bits) =>
          c <~ the_ck k ;;
          set_key k (CKey (Some bits) (ck_pending c) (ck_queue c)) ;;;
          answer_all bits (ck_queue c) ;;;
          set_key k (CKey (Some bits) (ck_pending c) [])
      end
  end.
(** decryptor_v2.py 299-329: _decryptAndImportKdk; [cred] is the decryption with the credentials key
    by the TPM of the application, at this time *)
Definition import_kdk (kdkData : data) (cred : bytes -> res (option bytes)) (rnd r : Z) : dm bool :=
  catch any_exn
    (e <~ lift (decode_content (d_content kdkData)) ;;
     p <~ lift (to_bytes (ec_payload e)) ;;
     bag <~ lift (sb_wireDecode p) ;;
     pk <~ lift (to_bytes (ec_payloadKey e)) ;;
     secret <~ lift (cred pk) ;;
     match secret with
     | None => fail r E_TpmKeyNotFound ;;; ret false
     | Some s =>
         key <~ lift (to_bytes (sb_key bag)) ;;
         inchain (importSafeBag P psign pverify ktype load ord (sb_certificate bag) key (Some s) rnd) ;;; ret true
     end)
    (fail r E_DecryptionFailure ;;; ret false).
(** decryptor_v2.py 186-201: is the KDK in the internal KeyChain? *)
Definition kdk_known (i k : name) : km bool :=
  pc <~ catch is_pib_error (h <~ an_id P (pcall P ktype ord (FGetIdentity i)) ;; ret (Some h)) (ret None) ;;
  match pc with
  | None => ret false
  | Some h => catch is_pib_error (an_key P (pcall P ktype ord (FGetKey h k)) ;;; ret true) (ret false)
  end.
(** decryptor_v2.py 173-213: onData of the CK *)
Definition on_ck (k : name) (r : Z) (ckData : data) (x : option Z) : dm unit :=
  catch any_exn
    (set_pending k 0 ;;;
     i <~ lift (kdk_info (d_name ckData) k) ;;
     match i with
     | BadName code => fail r code
     | KdkInfo prefix identity key =>
         b <~ inchain (kdk_known identity key) ;;
         if (b : bool) then decrypt_ck k ckData key r else fetch_kdk k prefix ckData N_RETRIES r x
     end)
    (fail r E_General).
(** decryptor_v2.py 258-273: onData of the KDK *)
Definition on_kdk (k prefix : name) (ckData : data) (r : Z) (kdkData : data) (cred : bytes -> res (option bytes)) (rnd : Z) : dm unit :=
  catch any_exn
    (set_pending k 0 ;;;
     b <~ import_kdk kdkData cred rnd r ;;
     if negb b then ret tt
     else key <~ lift (kdk_key_of prefix) ;; decrypt_ck k ckData key r)
    (fail r E_General).
(** The Interest [id] is satisfied, times out or has a network Nack *)
Definition take (id : Z) : dm (option pend) := fun s => (DState (d_keys s) (dremove Z.eqb (d_pend s) id) (d_chain s) (d_out s), Ok (dget Z.eqb (d_pend s) id)).
Inductive event : Type :=
  | EDecrypt (r : Z) (e : encryptedContent) (x : option Z)
  | EData (id : Z) (d : data) (cred : bytes -> res (option bytes)) (rnd : Z) (x : option Z)
  | ETimeout (id : Z) (x : option Z)
  | ENack (id : Z)
  | EShutdown.
(** decryptor_v2.py 81-135: decrypt *)
Definition decrypt (r : Z) (e : encryptedContent) (x : option Z) : dm unit :=
  if negb (match kl_type (ec_keyLocator e) with Some t => t =? 1 | None => false end) then fail r E_MissingRequiredKeyLocator
  else match ec_iv e with
  | None => fail r E_MissingRequiredInitialVector
  | Some _ =>
      let k := kl_name (ec_keyLocator e) in
      o <~ get (fun s => dget n_equals (d_keys s) k) ;;
      let c := match o with Some c => c | None => CKey None 0 [] end in
      match ck_bits c with
      | Some bits => emit (Answer r (do_decrypt e bits))
      | None => set_key k (CKey None (ck_pending c) (ck_queue c ++ [(r, e)]))
      end ;;;
      match o with Some _ => ret tt | None => fetch_ck k N_RETRIES r x end
  end.
(** decryptor_v2.py 67-79: shutdown *)
Fixpoint fail_all (l : list (Z * encryptedContent)) : dm unit :=
  match l with [] => ret tt | (r, _) :: l' => fail r E_CkRetrievalFailure ;;; fail_all l' end.
Fixpoint shutdown_keys (l : list name) : dm unit :=
  match l with
  | [] => ret tt
  | k :: l' =>
      c <~ the_ck k ;;
      (if 0 <? ck_pending c then take (ck_pending c) ;;; fail_all (ck_queue c) ;;; set_key k (CKey (ck_bits c) 0 []) else ret tt) ;;;
      shutdown_keys l'
  end.
Definition shutdown : dm unit := l <~ get (fun s => dkeys (d_keys s)) ;; shutdown_keys l.
Definition d_step (o : event) : dm unit :=
  match o with
  | EDecrypt r e x => decrypt r e x
  | EData id d cred rnd x =>
      p <~ take id ;;
      match p with
      | None => ret tt
      | Some (PCk k tries r) => on_ck k r d x
      | Some (PKdk k prefix ckData tries r) => on_kdk k prefix ckData r d cred rnd
      end
  | ETimeout id x =>
      p <~ take id ;;
      match p with
      | None => ret tt
      (* 215-221 *)
      | Some (PCk k tries r) => set_pending k 0 ;;; if 1 <? tries then fetch_ck k (tries - 1) r x else fail r E_CkRetrievalTimeout
      (* 275-283 *)
      | Some (PKdk k prefix ckData tries r) => set_pending k 0 ;;; if 1 <? tries then fetch_kdk k prefix ckData (tries - 1) r x else fail r E_KdkRetrievalTimeout
      end
  | ENack id =>
      p <~ take id ;;
      match p with
      | None => ret tt
      (* 223-227 *)
      | Some (PCk k tries r) => set_pending k 0 ;;; fail r E_CkRetrievalFailure
      (* 285-289 *)
      | Some (PKdk k prefix ckData tries r) => set_pending k 0 ;;; fail r E_KdkRetrievalFailure
      end
  | EShutdown => shutdown
  end.
Definition d_run (s : dstate) (l : list event) : dstate := fold_left (fun s o => fst (d_step o s)) l s.
End Nac.
Arguments DState {P} _ _ _ _.
Arguments d_keys {P} _.
Arguments d_pend {P} _.
Arguments d_chain {P} _.
Arguments d_out {P} _.
Arguments d_new {P} _.
