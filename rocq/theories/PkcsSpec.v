(** * Specification of PKCS #8 private keys, plain and encrypted *)
From Verif Require Import Base DerModel DerSpec PkcsModel.

(** RFC 5208: PrivateKeyInfo, and what the library needs of it: the algorithm and the private key *)
Definition key_oid (ty : Z) : list Z := if ty =? TK_EC then [1; 2; 840; 10045; 2; 1] else [1; 2; 840; 113549; 1; 1; 1].
Definition private_key_info (bs : bytes) (oid : list Z) (priv : bytes) : Prop :=
  exists version parameters attributes, der (VSeq (VInt version :: VSeq (VOid oid :: parameters) :: VOctets priv :: attributes)) bs.
(** RFC 5208 and 2898: EncryptedPrivateKeyInfo with PBES2, PBKDF2 and DES-EDE3-CBC; [more] are the
    optional fields of PBKDF2-params after the count: the length of the key and the prf *)
Definition encrypted_info (salt : bytes) (iterations : Z) (more : list value) (iv ciphertext : bytes) : value :=
  VSeq [VSeq [VOid [1; 2; 840; 113549; 1; 5; 13];
              VSeq [VSeq [VOid [1; 2; 840; 113549; 1; 5; 12]; VSeq (VOctets salt :: VInt iterations :: more)];
                    VSeq [VOid [1; 2; 840; 113549; 3; 7]; VOctets iv]]];
        VOctets ciphertext].
(** PKCS #5 padding, of [p] bytes *)
Definition padded (m : bytes) (p : Z) : bytes := m ++ repeat p (Z.to_nat p).
