(** * Specification of DER (X.690) for the types of the library *)
From Verif Require Import Base DerModel.

Inductive value : Type :=
  | VBool (b : bool) | VInt (n : Z) | VBits (unused : Z) (bs : bytes) | VOctets (bs : bytes) | VNull
  | VOid (l : list Z) | VString (bs : bytes) | VTime (bs : bytes) | VSeq (l : list value).

(** big endian *)
Definition be (l : bytes) : Z := fold_left (fun n b => n * 256 + b) l 0.
(** X.690 8.1.3, 10.1: the length in the definite form with the least number of bytes *)
Definition is_len (n : Z) (l : bytes) : Prop :=
  (0 <= n < 128 /\ l = [n]) \/
  (128 <= n /\ exists b r, l = (128 + zlen (b :: r)) :: b :: r /\ zlen (b :: r) <= 126 /\ bytes_ok (b :: r) /\ b <> 0 /\ be (b :: r) = n).
(** 8.3: the least number of bytes with the sign bit clear *)
Definition is_int (n : Z) (c : bytes) : Prop :=
  bytes_ok c /\ be c = n /\
  match c with [] => False | b :: r => b < 128 /\ match r with b2 :: _ => b = 0 -> 128 <= b2 | [] => True end end.
(** 8.19.2: base 128, the high bit set in all bytes but the last, no leading 128 *)
Definition is_128 (x : Z) (c : bytes) : Prop :=
  exists p z, c = p ++ [z] /\ Forall (fun b => 128 <= b < 256) p /\ 0 <= z < 128 /\ match p with b :: _ => b <> 128 | [] => True end /\
    x = fold_left (fun n b => n * 128 + (b - 128)) p 0 * 128 + z.
Definition is_oid (l : list Z) (c : bytes) : Prop :=
  exists a b r parts, l = a :: b :: r /\ 0 <= a <= 2 /\ 0 <= b <= 39 /\ Forall2 is_128 (40 * a + b :: r) parts /\ c = concat parts.
Definition tag (v : value) : Z :=
  match v with VBool _ => 1 | VInt _ => 2 | VBits _ _ => 3 | VOctets _ => 4 | VNull => 5 | VOid _ => 6 | VString _ => 19 | VTime _ => 24 | VSeq _ => 48 end.
Definition leaf_content (v : value) (c : bytes) : Prop :=
  match v with
  | VBool b => c = [if b then 255 else 0]
  | VInt n => is_int n c
  | VBits u bs => c = u :: bs /\ bytes_ok c
  | VOctets bs | VString bs | VTime bs => c = bs /\ bytes_ok c
  | VNull => c = []
  | VOid l => is_oid l c
  | VSeq _ => False
  end.
(** [bs] is the DER encoding of [v] *)
Fixpoint der (v : value) (bs : bytes) : Prop :=
  exists len c, bs = tag v :: len ++ c /\ is_len (zlen c) len /\
    match v with
    | VSeq l => (fix ders (l : list value) (c : bytes) : Prop := match l with [] => c = [] | v :: l' => exists b c', c = b ++ c' /\ der v b /\ ders l' c' end) l c
    | _ => leaf_content v c
    end.

(** The values that have an encoding *)
Fixpoint v_ok (v : value) : Prop :=
  match v with
  | VBool _ | VNull => True
  | VInt n => 0 <= n
  | VBits u bs => is_byte u /\ bytes_ok bs
  | VOctets bs | VString bs | VTime bs => bytes_ok bs
  | VOid l => exists a b r, l = a :: b :: r /\ 0 <= a <= 2 /\ 0 <= b <= 39 /\ Forall (fun x => 0 <= x) r
  | VSeq l => (fix oks (l : list value) : Prop := match l with [] => True | v :: l' => v_ok v /\ oks l' end) l
  end.

(** The node for a value, made with the constructors and addChild *)
Fixpoint build (v : value) : res node :=
  match v with
  | VBool b => Ok (der_boolean b)
  | VInt n => der_integer n
  | VBits u bs => der_bitString bs u
  | VOctets bs => Ok (der_byteString T_OCTETSTRING bs)
  | VNull => Ok der_null
  | VOid l => der_oid l
  | VString bs => Ok (der_byteString T_PRINTABLE bs)
  | VTime bs => Ok (der_byteString T_TIME bs)
  | VSeq l =>
      (fix add (n : node) (l : list value) : res node :=
         match l with
         | [] => Ok n
         | v :: l' => match build v with Ok c => add (addChild n c) l' | Err e => Err e end
         end) (Seq [] 0 false []) l
  end.
(** The value of a node as its toVal, getPayload and getChildren show it *)
Fixpoint read (floor40 : Z -> Z) (n : node) : res value :=
  match n with
  | Leaf t _ p =>
      if t =? T_BOOLEAN then match boolean_toVal p with Ok b => Ok (VBool b) | Err e => Err e end
      else if t =? T_INTEGER then match integer_toVal p with Ok b => Ok (VInt b) | Err e => Err e end
      else if t =? T_BITSTRING then match p with u :: bs => Ok (VBits u bs) | [] => Err IndexError end
      else if t =? T_OCTETSTRING then Ok (VOctets p)
      else if t =? T_NULL then Ok VNull
      else if t =? T_OID then match oid_toVal floor40 p with Ok l => Ok (VOid l) | Err e => Err e end
      else if t =? T_PRINTABLE then Ok (VString p)
      else Ok (VTime p)
  | Seq _ _ _ l =>
      match (fix reads (l : list node) : res (list value) :=
               match l with
               | [] => Ok []
               | n :: l' => match read floor40 n with Ok v => match reads l' with Ok r => Ok (v :: r) | Err e => Err e end | Err e => Err e end
               end) l with
      | Ok l => Ok (VSeq l)
      | Err e => Err e
      end
  end.

(** ** Updates of a tree of nodes *)
Inductive op : Type :=
  | OAdd (path : list nat) (child : value) (notify : bool)   (* addChild(DerNode for child, notify) at the descendant *)
  | OSize (path : list nat)                                  (* getSize() of the descendant *)
  | OEncode (path : list nat).                               (* encode() of the descendant *)
Definition exec (n : node) (o : op) : node :=
  match o with
  | OAdd p v notify => match build v with Ok c => at_path notify (fun n => addChild n c) p n | Err _ => n end
  | OSize p => at_path false (fun n => fst (getSize n)) p n
  | OEncode p => at_path false (fun n => fst (node_encode n)) p n
  end.
Fixpoint v_add (p : list nat) (w : value) (v : value) : value :=
  match v with
  | VSeq l =>
      match p with
      | [] => VSeq (l ++ [w])
      | i :: p' => VSeq (firstn i l ++ match skipn i l with c :: r => v_add p' w c :: r | [] => [] end)
      end
  | _ => v
  end.
Definition v_exec (v : value) (o : op) : value := match o with OAdd p w _ => v_add p w v | _ => v end.
(** A child is added with notification, or to the root *)
Definition op_ok (o : op) : Prop := match o with OAdd p w notify => v_ok w /\ (notify = true \/ p = []) | _ => True end.
