(** * Specification of the version 1 certificates *)
From Verif Require Import Base NameModel UriModel DerModel DerSpec PkcsModel IcertModel.

(** The content: SEQUENCE { SEQUENCE { notBefore, notAfter GeneralizedTime }, SEQUENCE OF
    SEQUENCE { OID, PrintableString }, SubjectPublicKeyInfo, SEQUENCE OF SEQUENCE { OID, BOOLEAN,
    OCTET STRING } OPTIONAL } *)
Definition cert_value (notBefore notAfter : bytes) (subjects : list (list Z * bytes)) (key : value) (extensions : list (list Z * bool * bytes)) : value :=
  VSeq ([VSeq [VTime notBefore; VTime notAfter]; VSeq (map (fun s => VSeq [VOid (fst s); VString (snd s)]) subjects); key] ++
        match extensions with [] => [] | _ => [VSeq (map (fun e => VSeq [VOid (fst (fst e)); VBool (snd (fst e)); VOctets (snd e)]) extensions)] end).
(** SubjectPublicKeyInfo: SEQUENCE { SEQUENCE { algorithm OID, parameters }, BIT STRING } *)
Definition public_key_value (key : value) (algorithm : list Z) : Prop := exists parameters bits, key = VSeq (VSeq (VOid algorithm :: parameters) :: bits).
(** A key whose bytes are [der] and whose type (KeyType) is known; an RSA key must also load *)
Definition known_key (load_public : bytes -> res unit) (key : value) (keyDer : bytes) (t : Z) : Prop :=
  der key keyDer /\ ((public_key_value key RSA_ENCRYPTION_OID /\ load_public keyDer = Ok tt /\ t = 0) \/ (public_key_value key EC_ENCRYPTION_OID /\ t = 1)).
Definition oid_ok (l : list Z) : Prop := exists a b r, l = a :: b :: r /\ 0 <= a <= 2 /\ 0 <= b <= 39 /\ Forall (fun x => 0 <= x) r.
Definition subject_ok (s : list Z * bytes) : Prop := oid_ok (fst s) /\ bytes_ok (snd s).
Definition extension_ok (e : list Z * bool * bytes) : Prop := oid_ok (fst (fst e)) /\ bytes_ok (snd e).
Definition ascii (b : bytes) : Prop := Forall (fun x => 0 <= x < 128) b.
(** The objects of the application *)
Definition to_subject (s : list Z * bytes) : subject := Subject (IsOid (fst s)) (snd s).
Definition to_extension (e : list Z * bool * bytes) : extension := Extension (IsOid (fst (fst e))) (PBool (snd (fst e))) (snd e).

(** The name of the key: KEY is removed, ID-CERT and what follows cut off *)
Definition word (t : bytes) (x : comp) : Prop := c_type x = 8 /\ c_value x = t.
Definition key_name (n p : name) : Prop :=
  exists a k b i c, n = a ++ [k] ++ b ++ [i] ++ c /\ word [75; 69; 89] k /\ word [73; 68; 45; 67; 69; 82; 84] i /\
    Forall (fun x => ~ word [75; 69; 89] x) a /\ Forall (fun x => ~ word [73; 68; 45; 67; 69; 82; 84] x) c /\ p = a ++ b.
