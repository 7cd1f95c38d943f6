(** * Specification of AccessManagerV2: the KEK and the KDK Data *)
From Verif Require Import Base NameModel DictModel WireModel CtlModel HierModel HierSpec BagModel ChainModel ChainSpec NacModel NacSpec AmModel.

(** The KEK Data of the key identity / KEY / id is identity / KEK / id and carries its public key. *)
Definition kek_name (nac : name) (kid : comp) : name := nac ++ [N_KEK; kid].
Definition kek_data (nac : name) (kid : comp) (pub : bytes) (d : data) : Prop := d_name d = kek_name nac kid /\ d_content d = Some pub.
(** The KDK Data for a member carries the private key with the certificate [c] of the key, under a
    secret, and the secret encrypted with the public key of the member. *)
Definition kdk_data (penc : Z -> bytes -> bytes -> res bytes) (nac : name) (kid : comp) (mk : name) (mpub : bytes) (c : data) (key secret : bytes) (d : data) : Prop :=
  d_name d = kdk_data_name nac kid mk /\
  exists r pk w, penc r mpub secret = Ok pk /\ sb_wireEncode (SafeBag c (Some key)) = Ok w /\
    d_content d = Some (encodeEncryptedContentV2 (EC None kl_empty None (Some w) (Some pk))).
(** The laws of the cryptography: a private key decrypts what was encrypted with its public key, and
    AES-CBC is inverted. *)
Definition rsa_law {P} (psign : Z -> P -> bytes -> bytes) pverify (penc : Z -> bytes -> bytes -> res bytes) (pdec : P -> bytes -> res bytes) : Prop :=
  forall b p r m c, belongs P psign pverify b p -> penc r b m = Ok c -> pdec p c = Ok m /\ c <> [].
Definition aes_law (cbc cbc_inv : bytes -> bytes -> bytes -> res bytes) : Prop := forall k iv m c, cbc k iv m = Ok c -> cbc_inv k iv c = Ok m.
(** The key of a member, in the TPM of its KeyChain *)
Definition member_key {P} (pdec : P -> bytes -> res bytes) (p : P) (c : bytes) : res (option bytes) := rbind (pdec p c) (fun m => Ok (Some m)).
