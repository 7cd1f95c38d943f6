(** * Specification of verification with the self-verify policy *)
From Verif Require Import Base NameModel WireModel CtlModel MatchModel PkcsModel TlvSpec WireSpec IcertModel IcertSpec IdmModel SelfModel.

Section Spec.
Context {P : Type}.
Variable load_public : bytes -> res unit.
Variable floor40 : Z -> Z.
Variable vrfy : bytes -> Z -> bytes -> bytes -> bool.
Variable sha : bytes -> bytes.

(** The public key that the storage has for the name in a key locator: a certificate name stands for its key *)
Definition key_for (w : store P) (n : name) (b : bytes) : Prop :=
  match w with IdentityStore _ s => exists k, key_name n k /\ getKey P k s = Ok b | PibStore _ getBits => getBits n = Ok b | NoStore _ => False end.
(** The signature is a digest of the bytes, or verifies with a key of the storage *)
Definition vouched (w : store P) (sg : signature) (m : bytes) : Prop :=
  match sg with
  | SigDigest bits => bits = Some (sha m)
  | SigRsa kl _ bits | SigEcdsa kl _ bits => exists b x t sig, kl_type kl = Some 1 /\ key_for w (kl_name kl) b /\ pk_new load_public floor40 b = Ok x /\ pk_type x = Some t /\ bits = Some sig /\ vrfy b t m sig = true
  | _ => False
  end.
End Spec.
(** The bytes that the signature of a packet is over: the portion of the encoding it was received in, or that its
    own encoding has *)
Definition data_covers (d : data) (cached : option encoding) (m : bytes) : Prop :=
  match cached with Some (w, (b, e)) => m = zslice w b e | None => data_ok d /\ m = data_signed d end.
Definition interest_covers (i : interest) (cached : option encoding) (m : bytes) : Prop :=
  match cached with Some (w, (b, e)) => m = zslice w b e | None => interest_ok i /\ m = elems (map comp_el (removelast (i_name i))) end.
(** An Interest is signed when its last components are a SignatureInfo and a SignatureValue *)
Definition signed_with (i : interest) (sg : signature) : Prop := exists pre a b, i_name i = pre ++ [a; b] /\ decodeSignatureInfoAndValue (c_value a) (c_value b) = Ok sg.
(** A certificate name that goes on after ID-CERT *)
Definition versioned (n : name) : Prop := exists p v, n = p ++ [v] /\ ~ word [73; 68; 45; 67; 69; 82; 84] v.
