(** * Model of signing and verifying with a version 1 KeyChain: python/pyndn/security/key_chain.py with
    policy/self_verify_policy_manager.py, policy/no_verify_policy_manager.py, policy/policy_manager.py,
    verification_helpers.py and the signing methods of identity/identity_manager.py

    The identity manager is that of IdmModel. A packet to verify comes with the encoding that it caches, if
    any (C24). Of the cryptography: [vrfy key type m bits] is load_der_public_key and verify (an error of
    either is False), [sha] is SHA-256, [hmac] is HMAC-SHA256. The callbacks onVerified and onValidationFailed
    may raise: the exception is logged and has no effect. The reason strings are not modelled, except that
    making one may raise. *)
From Verif Require Import Base NameModel UriModel BlobModel DictModel DerModel PkcsModel WireModel CtlModel MatchModel IcertModel IdmModel.
From Verif Require ChainModel.
Local Open Scope res_scope.
Notation i_setName := ChainModel.i_setName.

Section Self.
Variable P : Type.
Variable psign : P -> Z -> bytes -> res bytes.
Variable load_public : bytes -> res unit.
Variable floor40 : Z -> Z.
Variable vrfy : bytes -> Z -> bytes -> bytes -> bool.
Variable sha : bytes -> bytes.
Variable hmac : bytes -> bytes -> bytes.
Notation st := (st P).

(** ** Encodings *)
Definition encoding : Type := bytes * (Z * Z).
(** data.py 210-236, interest.py 604-633: wireEncode gives the cached encoding if there is one; [rn] are
    the random bytes for a nonce *)
Definition encodingOfData (d : data) (cached : option encoding) : res encoding := match cached with Some e => Ok e | None => encodeData d end.
Definition encodingOfInterest (rn : bytes) (i : interest) (cached : option encoding) : res encoding := match cached with Some e => Ok e | None => encodeInterest rn i end.

(** ** Signing *)
(** identity_manager.py 563-598: signInterestByCertificate; only the name of the Interest changes *)
Definition signInterest (rn : bytes) (i : interest) (n : name) (s : st) : res interest :=
  sg <-- makeSignature P n s ;;
  info <-- encodeSignatureInfo sg ;;
  let n1 := i_name i ++ [c_generic info; c_generic []] in
  e <-- encodeInterest rn (i_setName i n1) ;;
  k <-- certificateNameToPublicKeyName n ;;
  bits <-- tpm_sign P psign (signed_part e) k 1 s ;;
  p <-- n_getPrefix n1 (-1) ;;
  Ok (i_setName i (p ++ [c_generic (encodeSignatureValue (sig_setBits sg (Some bits)))])).
(** identity_manager.py 600-626: signWithSha256 *)
Definition signDataSha (d : data) : res data :=
  e <-- encodeData (Data (d_name d) (d_meta d) (d_content d) (SigDigest None)) ;;
  let d2 := Data (d_name d) (d_meta d) (d_content d) (SigDigest (Some (sha (signed_part e)))) in
  _ <-- encodeData d2 ;; Ok d2.
(** identity_manager.py 628-661: signInterestWithSha256 *)
Definition signInterestSha (rn : bytes) (i : interest) : res interest :=
  info <-- encodeSignatureInfo (SigDigest None) ;;
  let n1 := i_name i ++ [c_generic info; c_generic []] in
  e <-- encodeInterest rn (i_setName i n1) ;;
  p <-- n_getPrefix n1 (-1) ;;
  Ok (i_setName i (p ++ [c_generic (encodeSignatureValue (SigDigest (Some (sha (signed_part e)))))])).
(** key_chain.py 1086-1107: signByIdentity of a Data in security v1; both policy managers infer the empty
    identity and allow every certificate (self_verify_policy_manager.py 172-193); identity_manager.py
    466-477: getDefaultCertificateName *)
Definition signByIdentity (d : data) (i : name) (s : st) : res data :=
  n <-- (if zlen i =? 0 then j <-- getDefaultIdentity P s ;; getDefaultCertificateNameForIdentity P j s else getDefaultCertificateNameForIdentity P i s) ;;
  if zlen n =? 0 then Err SecurityException else signData P psign d n s.
(** key_chain.py 1282-1351: signWithHmacWithSha256: a Data keeps its signature object *)
Definition signDataHmac (d : data) (key : bytes) : res data :=
  e <-- encodeData d ;; Ok (Data (d_name d) (d_meta d) (d_content d) (sig_setBits (d_sig d) (Some (hmac key (signed_part e))))).
Definition signInterestHmac (rn : bytes) (i : interest) (key : bytes) (keyName : option name) : res interest :=
  match keyName with
  | None => Err SecurityException
  | Some k =>
      let sg := SigHmac (KL (Some 1) k None) None in
      info <-- encodeSignatureInfo sg ;;
      let n1 := i_name i ++ [c_generic info; c_generic []] in
      e <-- encodeInterest rn (i_setName i n1) ;;
      p <-- n_getPrefix n1 (-1) ;;
      Ok (i_setName i (p ++ [c_generic (encodeSignatureValue (sig_setBits sg (Some (hmac key (signed_part e)))))]))
  end.

(** ** Verifying *)
(** verification_helpers.py 38-107: verifySignature with SHA256; a null signature makes verify raise, which
    is False *)
Definition verifyWithKey (m : bytes) (bits : option bytes) (x : publicKey) : res bool :=
  match pk_type x, pk_der x with
  | Some t, Some b => if (t =? 0) || (t =? 1) then Ok (match bits with Some sg => vrfy b t m sg | None => false end) else Err ValueError
  | _, _ => Err ValueError
  end.
(** 215-243: verifyDigest; None is not equal to bytes *)
Definition verifyDigest (m : bytes) (bits : option bytes) : bool := match bits with Some b => zlist_eqb b (sha m) | None => false end.
(** policy_manager.py 129-160: verifySignature; the key is used only with a signature that has a locator *)
Definition verifySignature (s : signature) (m : bytes) (key : option bytes) : res bool :=
  match s with
  | SigRsa _ _ bits | SigEcdsa _ _ bits => match key with None => Ok false | Some b => x <-- pk_new load_public floor40 b ;; verifyWithKey m bits x end
  | SigDigest bits => Ok (verifyDigest m bits)
  | _ => Err SecurityException
  end.
(** self_verify_policy_manager.py 52-58: the storage is an IdentityStorage, or else a PibImpl ([getBits] is its
    getKeyBits) or None *)
Inductive store : Type := IdentityStore (s : st) | PibStore (getBits : name -> res bytes) | NoStore.
(** 227-267: _getPublicKeyDer: None is the null Blob. In the branch of the PibImpl the reason is made of keyName,
    which has no value there: UnboundLocalError, which is OtherError here. *)
Definition getPublicKeyDer (w : store) (kl : keyLocator) : res (option bytes) :=
  let isName := match kl_type kl with Some t => t =? 1 | None => false end in
  match w with
  | IdentityStore s =>
      if isName then
        match certificateNameToPublicKeyName (kl_name kl) with
        | Err _ => Ok None
        | Ok k => match getKey P k s with Ok b => Ok (Some b) | Err SecurityException => Ok None | Err e => Err e end
        end
      else Ok None
  | PibStore getBits => if isName then match getBits (kl_name kl) with Ok b => Ok (Some b) | Err SecurityException => Err OtherError | Err e => Err e end else Ok None
  | NoStore => Ok None
  end.
(** 195-225: _verify *)
Definition verify (w : store) (s : signature) (m : bytes) : res bool :=
  match kl_ofSignature s with
  | Some kl => key <-- getPublicKeyDer w kl ;; match key with None => Ok false | Some b => verifySignature s m (Some b) end
  | None => verifySignature s m None
  end.
(** What a verification does: it calls one of the callbacks, or raises *)
Inductive outcome : Type := Verified | Failed | Raised (e : exn).
Definition outcome_of (r : res bool) : outcome := match r with Ok true => Verified | Ok false => Failed | Err e => Raised e end.
(** 83-170: checkVerificationPolicy *)
Definition checkData (w : store) (d : data) (cached : option encoding) : outcome :=
  outcome_of (e <-- encodingOfData d cached ;; verify w (d_sig d) (signed_part e)).
Definition checkInterest (w : store) (rn : bytes) (i : interest) (cached : option encoding) : outcome :=
  if zlen (i_name i) <? 2 then Failed
  else match (a <-- py_getitem (i_name i) (-2) ;; b <-- py_getitem (i_name i) (-1) ;; decodeSignatureInfoAndValue (c_value a) (c_value b)) with
       | Err _ => Failed
       | Ok s => outcome_of (e <-- encodingOfInterest rn i cached ;; verify w s (signed_part e))
       end.
(** key_chain.py 1149-1207, 1209-1272: verifyData, verifyInterest with the NoVerifyPolicyManager (requireVerify is
    False and skipVerifyAndTrust True) or the SelfVerifyPolicyManager (requireVerify is True, and no further step
    is asked for) *)
Inductive policy : Type := NoVerify | SelfVerify (w : store).
Definition verifyData (q : policy) (d : data) (cached : option encoding) : outcome := match q with NoVerify => Verified | SelfVerify w => checkData w d cached end.
Definition verifyInterest (q : policy) (rn : bytes) (i : interest) (cached : option encoding) : outcome := match q with NoVerify => Verified | SelfVerify w => checkInterest w rn i cached end.
(** key_chain.py 1353-1381, 1383-1416: verifyDataWithHmacWithSha256, verifyInterestWithHmacWithSha256 *)
Definition hmac_equal (key m : bytes) (bits : option bytes) : bool := match bits with Some b => zlist_eqb (hmac key m) b | None => false end.
Definition verifyDataHmac (d : data) (cached : option encoding) (key : bytes) : res bool :=
  e <-- encodingOfData d cached ;; Ok (hmac_equal key (signed_part e) (sig_bits (d_sig d))).
Definition verifyInterestHmac (rn : bytes) (i : interest) (cached : option encoding) (key : bytes) : res bool :=
  a <-- py_getitem (i_name i) (-2) ;; b <-- py_getitem (i_name i) (-1) ;; s <-- decodeSignatureInfoAndValue (c_value a) (c_value b) ;;
  e <-- encodingOfInterest rn i cached ;; Ok (hmac_equal key (signed_part e) (sig_bits s)).
End Self.
