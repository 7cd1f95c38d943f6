(** * Specification vocabulary for TLV: the NDN packet format grammar.

    Independent of the code: big-endian digits, VAR-NUMBER, TLV element,
    sequence of TLV elements. *)
From Verif Require Import Base.

(** Value of a big-endian digit string in base 256. *)
Definition be_value (l : bytes) : Z := fold_left (fun acc b => acc * 256 + b) l 0.

(** The [k]-digit big-endian representation of [n]. *)
Fixpoint be (k : nat) (n : Z) : bytes :=
  match k with
  | O => []
  | S k' => (n / 256 ^ Z.of_nat k') mod 256 :: be k' n
  end.

(** NDN packet format, VAR-NUMBER: shortest form. *)
Definition varnum (n : Z) : bytes :=
  if n <? 253 then [n]
  else if n <? 2 ^ 16 then 253 :: be 2 n
  else if n <? 2 ^ 32 then 254 :: be 4 n
  else 255 :: be 8 n.

(** nonNegativeInteger: shortest of 1, 2, 4, 8 bytes. *)
Definition nonneg (n : Z) : bytes :=
  if n <? 2 ^ 8 then be 1 n
  else if n <? 2 ^ 16 then be 2 n
  else if n <? 2 ^ 32 then be 4 n
  else be 8 n.

(** A TLV element and a sequence of elements. *)
Definition tlv (t : Z) (v : bytes) : bytes := varnum t ++ varnum (zlen v) ++ v.

Definition elems (es : list (Z * bytes)) : bytes :=
  concat (map (fun e => tlv (fst e) (snd e)) es).

Definition u64 (n : Z) : Prop := 0 <= n < 2 ^ 64.

(** Any acceptable (possibly non-shortest) VAR-NUMBER form, as the decoder reads it. *)
Inductive var_form : Z -> bytes -> Prop :=
| VF1 : forall b, is_byte b -> b < 253 -> var_form b [b]
| VF2 : forall l, bytes_ok l -> length l = 2%nat -> var_form (be_value l) (253 :: l)
| VF4 : forall l, bytes_ok l -> length l = 4%nat -> var_form (be_value l) (254 :: l)
| VF8 : forall l, bytes_ok l -> length l = 8%nat -> var_form (be_value l) (255 :: l).

(** [bs] is a sequence of TLVs with the given types and values (any VAR-NUMBER forms). *)
Inductive tlv_seq : list (Z * bytes) -> bytes -> Prop :=
| TS_nil : tlv_seq [] []
| TS_cons : forall t v tb lb es bs,
    var_form t tb -> var_form (zlen v) lb -> tlv_seq es bs ->
    tlv_seq ((t, v) :: es) (tb ++ lb ++ v ++ bs).

(** NDN evolvability rule: types up to 31 and odd types are critical. *)
Definition critical (t : Z) : Prop := t <= 31 \/ Z.odd t = true.
