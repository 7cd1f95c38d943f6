(** * Model of the SafeBag constructor that makes a self-signed certificate
    (python/pyndn/security/safe_bag.py), with the TPM of ChainModel *)
From Verif Require Import Base NameModel DictModel WireModel HierModel PibModel FrontModel BagModel ChainModel.
Local Open Scope sm_scope.

Section Bag.
Variable P : Type.
Variable psign : Z -> P -> bytes -> bytes.
Variable ktype : bytes -> res Z.
Variable load : bytes -> option bytes -> res P.

(** safe_bag.py 194-195: the temporary TPM; the PIB part of the state is not used *)
Definition temporary : kstate P := k_new pib_new [].
(** safe_bag.py 173-222: _makeSelfSignedCertificate *)
Definition make_self (k : name) (bag pub : bytes) (pw : option bytes) (digest now rnd : Z) : sm (kstate P) data :=
  v <~ lift (c_fromVersion now) ;;
  let n := k ++ [self_comp; v] in
  ty <~ lift (ktype pub) ;;
  tpm_import P load k bag pw ;;;
  sg <~ (if ty =? KT_RSA then ret (SigRsa (KL (Some 1) k None) (vp_setPeriod now (now + YEARS_20)))
         else if ty =? KT_EC then ret (SigEcdsa (KL (Some 1) k None) (vp_setPeriod now (now + YEARS_20)))
         else raise ValueError) ;;
  let d := fun bits => Data n (MI 2 (-1) (Some 3600000) (c_generic [])) (Some pub) (sg bits) in
  e <~ lift (encodeData (d None)) ;;
  bits <~ tpm_sign P psign rnd (signed_bytes e) k digest ;;
  lift (encodeData (d bits)) ;;;
  ret (d bits).
(** safe_bag.py 81-90: SafeBag(keyName, privateKeyBag, publicKeyEncoding, password, digestAlgorithm) *)
Definition sb_ofKey (k : name) (bag pub : bytes) (pw : option bytes) (digest now rnd : Z) : res safeBag :=
  match snd (make_self k bag pub pw digest now rnd temporary) with Ok c => Ok (SafeBag c (Some bag)) | Err e => Err e end.
End Bag.
