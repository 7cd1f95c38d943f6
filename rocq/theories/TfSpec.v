(** * Specification of TpmBackEndFile: a map from key names to keys *)
From Verif Require Import Base BlobModel NameModel WireModel HierModel ChainModel PkcsModel TfModel.

Definition name_dec (a b : name) : {a = b} + {a <> b}.
Proof. repeat (decide equality; try apply Z.eq_dec; try apply list_eq_dec, Z.eq_dec). Defined.

Section Tf.
Variable K : Type.
Variable load_der : bytes -> res K.
Variable to_der : K -> bytes.
Variable pbkdf2 : Z -> bytes -> Z -> bytes -> res bytes.
Variable des des_inv : bytes -> bytes -> bytes -> res bytes.
Variable floor40 : Z -> Z.
Variable sha : bytes -> bytes.
Variable derive : tkey K -> bytes.
Notation tkey := (tkey K).
Notation call := (call K).

(** The keys the application can store: the cryptography package reads back the PKCS #1 form it has
    made, and refuses it if the end is missing (see C71 for when toPkcs1 and loadPkcs1 succeed). *)
Definition storable (k : tkey) : Prop :=
  exists der, toPkcs1 K to_der k = Ok der /\ bytes_ok der /\ loadPkcs1 K load_der floor40 der None = Ok k /\
    forall a b, der = a ++ b -> b <> [] -> exists e, load_der a = Err e.
(** [U] are the names of keys that are used: no two have the same SHA-256. *)
Definition no_collision (U : name -> Prop) : Prop := forall n n', U n -> U n' -> blob_toHex (Some (sha (encodeName n))) = blob_toHex (Some (sha (encodeName n'))) -> n = n'.
(** The names that a call may use, and the key it may store *)
Definition may_use (c : call) (n : name) : Prop :=
  match c with
  | Create _ i kp gen rs =>
      (kp_idType kp = KI_USER /\ n = i ++ [KEY; kp_id kp]) \/
      (kp_idType kp = KI_SHA256 /\ exists k, gen = Ok k /\ n = i ++ [KEY; c_generic (sha (derive k))]) \/
      (kp_idType kp = KI_RANDOM /\ exists r, In r rs /\ n = i ++ [KEY; c_generic r])
  | Delete _ n' => n = n'
  | Import _ n' _ _ => n = n'
  end.
Notation parse_bag := (parse_bag K load_der pbkdf2 des_inv floor40).
Definition may_store (c : call) (k : tkey) : Prop :=
  match c with Create _ _ _ gen _ => gen = Ok k | Delete _ _ => False | Import _ _ bag pw => parse_bag bag pw = Ok k end.
Definition call_ok (U : name -> Prop) (c : call) : Prop := (forall n, may_use c n -> U n) /\ (forall k, may_store c k -> storable k).

(** ** The map that a history determines *)
Definition keymap : Type := name -> option tkey.
Definition m_set (m : keymap) (n : name) (k : option tkey) : keymap := fun n' => if name_dec n n' then k else m n'.
(** The name of a new key: None if it is refused *)
Fixpoint first_free (m : keymap) (i : name) (rs : list bytes) : option name :=
  match rs with [] => None | r :: rs' => let n := i ++ [KEY; c_generic r] in match m n with Some _ => first_free m i rs' | None => if zlen r =? 0 then None else Some n end end.
Definition new_name (m : keymap) (i : name) (kp : keyparams) (k : tkey) (rs : list bytes) : option name :=
  if kp_idType kp =? KI_USER then let n := i ++ [KEY; kp_id kp] in match m n with Some _ => None | None => Some n end
  else if kp_idType kp =? KI_SHA256 then Some (i ++ [KEY; c_generic (sha (derive k))])
  else if kp_idType kp =? KI_RANDOM then first_free m i rs
  else None.
Definition m_call (m : keymap) (c : call) : keymap :=
  match c with
  | Create _ i kp gen rs => match gen with Ok k => match new_name m i kp k rs with Some n => m_set m n (Some k) | None => m end | Err _ => m end
  | Delete _ n => m_set m n None
  | Import _ n bag pw => match m n, parse_bag bag pw with None, Ok k => m_set m n (Some k) | _, _ => m end
  end.
Definition m_run (h : list call) : keymap := fold_left m_call h (fun _ => None).

(** ** Histories in which operations fail and processes end in the middle of a call *)
Inductive reach (rd : bool) : list call -> files -> Prop :=
  | R_start : reach rd [] no_files
  | R_call h f c f' r : reach rd h f -> exec rd (p_call K load_der to_der pbkdf2 des_inv floor40 sha derive c) f f' r -> reach rd (h ++ [c]) f'.
End Tf.
