(** * Specification: names of keys and certificates, and the hierarchy of names *)
From Verif Require Import Base TlvModel NameModel NameSpec WireModel CtlModel CmdSpec MatchSpec ValModel AnchorSpec ValSpec HierModel.

Definition key_comp : comp := c_generic [75; 69; 89].
(** /<identity>/KEY/<key id>/<issuer>/<version> *)
Definition cert_name (identity : name) (kid issuer version : comp) : name := identity ++ [key_comp; kid; issuer; version].
(** /<identity>/KEY/<key id> *)
Definition key_name (identity : name) (kid : comp) : name := identity ++ [key_comp; kid].

(** the key locator of a packet is the name [k] *)
Definition located (p : packet) (k : name) : Prop :=
  match p with
  | PData d => locates (d_sig d) k
  | PInterest n => exists q ci cv s, n = q ++ [ci; cv] /\ decodeSignatureInfoAndValue (c_value ci) (c_value cv) = Ok s /\ locates s k
  end.

(** names without the component types *)
Definition vals (n : name) : list bytes := map c_value n.
Definition KEYv : bytes := [75; 69; 89].
(** The packet named [n] with the key locator [k], against a certificate named [c]: the name of
    the certificate begins with the key locator (or the key locator is the certificate's full
    name), and [n] begins with the key locator without its last two components (with nothing, if
    the key locator is shorter than that). *)
Definition without2 {A} (l : list A) : list A := firstn (length l - 2) l.
Definition linked (n k c : name) : Prop :=
  (prefix (vals k) (vals c) \/ exists digest, vals k = vals c ++ [digest]) /\ prefix (without2 (vals k)) (vals n).

(** [a] signed the first certificate of the chain, that one the next, ..., the last one the
    packet, each with a key locator that links the two names. *)
Definition one (verify : packet -> data -> res bool) (a : data) (p : packet) : Prop :=
  verify p a = Ok true /\ exists k, located p k /\ linked (p_name p) k (d_name a).
Fixpoint chain_to (verify : packet -> data -> res bool) (a : data) (chain : list data) (p : packet) : Prop :=
  match chain with
  | [] => one verify a p
  | c :: chain' => one verify a (PData c) /\ chain_to verify c chain' p
  end.
(** A root: a trust anchor, or a certificate that the user put into the cache of verified
    certificates *)
Definition root (files : nat -> Z -> res (list (option vcert))) (H : list (@event packet vcert)) (a : vcert) : Prop :=
  (exists k, (k <= length H)%nat /\ anchor vcheck files H k a) \/ (exists now, In (EVerified now a) H).

(** A well-formed deployment: certificates are named /<identity>/KEY/<key id>/<issuer>/<version>,
    key locators /<identity>/KEY/<key id>, and no identity has a component KEY. *)
Definition cert_of (identity : list bytes) (c : name) : Prop :=
  exists kid issuer version, vals c = identity ++ [KEYv; kid; issuer; version] /\ ~ In KEYv identity.
Definition locator_of (identity : list bytes) (k : name) : Prop :=
  exists kid, vals k = identity ++ [KEYv; kid] /\ ~ In KEYv identity.
Definition well_formed (a : data) (chain : list data) (p : packet) : Prop :=
  (forall c, In c (a :: chain) -> exists id, cert_of id (d_name c)) /\
  (forall q k, In q (p :: map PData chain) -> located q k -> exists id, locator_of id k).
