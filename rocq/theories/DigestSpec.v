(** * Specification of C34 *)
From Verif Require Import Base BlobModel DigestModel.
From Coq Require Import Sorted.

(** The order of strings by code points. *)
Inductive str_before : str -> str -> Prop :=
| SB_prefix b y : str_before [] (y :: b)
| SB_less a b x y : x < y -> str_before (x :: a) (y :: b)
| SB_same a b x : str_before a b -> str_before (x :: a) (x :: b).
(** The order of the nodes: by prefix, then by session. *)
Definition node_before (a b : node) : Prop :=
  str_before (n_prefix a) (n_prefix b) \/ (n_prefix a = n_prefix b /\ n_session a < n_session b).
(** The highest sequence number of the updates for a prefix and session. *)
Definition latest (us : list (str * Z * Z)) (p : str) (s q : Z) : Prop :=
  In (p, s, q) us /\ forall q', In (p, s, q') us -> q' <= q.
Definition encodable (p : str) : Prop := exists b, utf8_encode p = Ok b.
(** The 32 low bits of a number, least byte first. *)
Definition le_bytes (v : Z) : bytes := [v mod 256; v / 256 mod 256; v / 65536 mod 256; v / 16777216 mod 256].
(** SHA-256 gives bytes. *)
Definition sha_fn (sha : bytes -> bytes) : Prop := forall b, bytes_ok (sha b).
(** The hash of one node and of the tree. *)
Definition node_hash (sha : bytes -> bytes) (p : bytes) (s q : Z) : bytes := sha (sha p ++ sha (le_bytes s ++ le_bytes q)).
