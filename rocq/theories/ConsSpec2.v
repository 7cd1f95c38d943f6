(** * What producers and group managers publish, and a network that delivers it *)
From Verif Require Import Base NameModel NameSpec DictModel WireModel WireSpec CtlModel CtlSpec EncrModel GmSpec ConsModel ConsSpec.

Section World.
Variable rsa_enc : bytes -> bytes -> Z -> Z -> rsa_out.
Variable aes_enc : bytes -> bytes -> Z -> bytes -> res bytes.
Variable rsa_dec : bytes -> bytes -> res bytes.
Variable aes_dec : bytes -> bytes -> bytes -> res bytes.
(** The content keys by their names; the key pairs (public, private) of the E-KEYs by their names, and
    those of the members of the group *)
Variable content_key : name -> option bytes.
Variable ekey member : name -> option (bytes * bytes).
(** The private key decrypts what the public key encrypts. *)
Definition rsa_pair (pub priv : bytes) : Prop := forall m pad c, rsa_enc pub m 3 pad = Sealed c -> rsa_dec priv c = Ok m.
Definition world_ok : Prop :=
  (forall key m iv c, aes_enc key m 1 iv = Ok c -> aes_dec key iv c = Ok m) /\
  (forall n k, content_key n = Some k -> name_ok n) /\
  (forall n pub priv, ekey n = Some (pub, priv) -> name_ok n /\ (exists m a b, n = m ++ [c_generic [69; 45; 75; 69; 89]; a; b]) /\ rsa_pair pub priv) /\
  (forall n pub priv, member n = Some (pub, priv) -> name_ok n /\ priv <> [] /\ rsa_pair pub priv).

(** The packet that Producer.produce makes of [m] (C82) *)
Definition made (d : cdata) (m : bytes) : Prop :=
  exists n k iv w, content_key n = Some k /\ cd_content d = Some w /\ zlen w < 2 ^ 64 /\ aes_part aes_enc k m iv n w.
(** The packets of the producer for a content key (C82): encrypted for an E-KEY *)
Definition carries_ckey (d : cdata) (k : bytes) : Prop :=
  exists n pub priv pad w, ekey n = Some (pub, priv) /\ cd_content d = Some w /\ zlen w < 2 ^ 64 /\ rsa_part rsa_enc pub k n 3 pad w.
(** The packets of the group manager for a private key (C80): in two parts, since it is too long to be
    encrypted for the member directly *)
Definition carries_dkey (d : cdata) (priv : bytes) : Prop :=
  exists n pub mpriv nonce iv pad w1 w2, member n = Some (pub, mpriv) /\ cd_content d = Some (w1 ++ w2) /\ zlen w1 < 2 ^ 64 /\ zlen w2 < 2 ^ 64 /\
    rsa_part rsa_enc pub nonce n 3 pad w1 /\ aes_part aes_enc nonce priv iv (n ++ [c_generic [110; 111; 110; 99; 101]]) w2.

(** The verified packets are the right ones, and the keys of the member are in the database all the time. *)
Definition honest (consumerName : name) (db : dict bytes bytes) (l : list cevent) : Prop :=
  (forall i d, verified l i d -> i_stage i = ForContent -> exists m, made d m) /\
  (forall i d n g k, verified l i d -> i_name i = with_for n g -> content_key n = Some k -> carries_ckey d k) /\
  (forall i d m a b pub priv, verified l i d -> i_name i = with_for (m ++ [c_generic [68; 45; 75; 69; 89]; a; b]) consumerName ->
     ekey (m ++ [c_generic [69; 45; 75; 69; 89]; a; b]) = Some (pub, priv) -> carries_dkey d priv) /\
  (forall l1 l2 n pub priv, l = l1 ++ l2 -> member n = Some (pub, priv) -> keys_of consumerName db l1 (encodeName n) = Some priv).
End World.
