(** * Specification of FilePrivateKeyStorage: a map from key names to key pairs *)
From Verif Require Import Base BlobModel NameModel UriModel WireModel DerModel PkcsModel IcertModel TfModel TfSpec SinfoProps FpkModel.

Section Fpk.
Variable P : Type.
Variable to8 : P -> res bytes.
Variable load8 : bytes -> res P.
Variable derive : P -> res bytes.
Variable psign : P -> bytes -> Z -> res bytes.
Variable sha : bytes -> bytes.
Variable load_public : bytes -> res unit.
Variable floor40 : Z -> Z.
Variable dir : list Z.
Notation call := (call P).
Notation p_call := (p_call P to8 derive sha dir).

(** The keys that the cryptography package can write, and read again *)
Definition good_key (k : P) : Prop :=
  exists priv publ, to8 k = Ok priv /\ derive k = Ok publ /\ bytes_ok priv /\ bytes_ok publ /\ load8 priv = Ok k.
(** ... and does not read when the end is missing *)
Definition whole_only (k : P) : Prop := forall priv a b, to8 k = Ok priv -> priv = a ++ b -> b <> [] -> exists e, load8 a = Err e.
(** [U] are the names that are used: they have URIs (C12), and no two of the URIs have the same SHA-256 *)
Definition names_ok (U : name -> Prop) : Prop :=
  (forall n, U n -> uri_ok n /\ bytes_ok (sha (n_toUri n false))) /\ (forall n n', U n -> U n' -> sha (n_toUri n false) = sha (n_toUri n' false) -> n_toUri n false = n_toUri n' false).
Definition call_ok (U : name -> Prop) (c : call) : Prop :=
  match c with Generate _ n g => U n /\ forall k, g = Ok k -> good_key k | Delete _ n => U n end.

(** ** The map that a history determines *)
Definition keymap : Type := name -> option P.
Definition m_set (m : keymap) (n : name) (k : option P) : keymap := fun n' => if name_dec n n' then k else m n'.
Definition m_call (m : keymap) (c : call) : keymap :=
  match c with
  | Generate _ n (Ok k) => match m n with None => m_set m n (Some k) | Some _ => m end
  | Generate _ n (Err _) => m
  | Delete _ n => m_set m n None
  end.
Definition m_run (h : list call) : keymap := fold_left m_call h (fun _ => None).
(** The generations that succeed, in their order *)
Fixpoint generated (m : keymap) (h : list call) : list name :=
  match h with
  | [] => []
  | c :: h' =>
      match c with Generate _ n (Ok _) => match m n with None => [n] | Some _ => [] end | _ => [] end ++ generated (m_call m c) h'
  end.

(** ** Histories in which operations fail and processes end in the middle of a call *)
Inductive reach : list call -> fs -> Prop :=
  | R_start : reach [] no_files
  | R_call h f c f' r : reach h f -> exec (p_call c) f f' r -> reach (h ++ [c]) f'.
End Fpk.
