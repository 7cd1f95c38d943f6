(** * Model of DER: encoding/der/der_node.py, encoding/oid.py

    A node is its contents: type, header and payload, and for a DerSequence the header, the cached
    size, the flag _childChanged and the children.  The methods which update the node return the new
    node.  The DER exceptions are [OtherError].  Sizes are lengths, so the test for a negative size
    (der_node.py 61-62) never succeeds and is left out.  A buffer with a start index is the rest of
    the buffer from there. *)
From Verif Require Import Base BaseLemmas UriModel CalModel.
Local Open Scope res_scope.

Definition T_BOOLEAN : Z := 1.
Definition T_INTEGER : Z := 2.
Definition T_BITSTRING : Z := 3.
Definition T_OCTETSTRING : Z := 4.
Definition T_NULL : Z := 5.
Definition T_OID : Z := 6.
Definition T_PRINTABLE : Z := 19.
Definition T_TIME : Z := 24.
Definition T_SEQUENCE : Z := 48.

Inductive node : Type :=
  | Leaf (nodeType : Z) (header payload : bytes)
  | Seq (header : bytes) (size : Z) (childChanged : bool) (nodeList : list node).

(** der_node.py 69-72, 403-409: the big endian bytes of a number *)
Fixpoint be_loop (fuel : nat) (v : Z) (acc : bytes) : bytes :=
  if v =? 0 then acc else match fuel with O => acc | S f => be_loop f (v / 256) (v mod 256 :: acc) end.
Definition be_bytes (v : Z) : bytes := be_loop (S (Z.to_nat (Z.log2 v))) v [].
(** der_node.py 53-74: _encodeHeader *)
Definition encodeHeader (t size : Z) : bytes :=
  if size <=? 127 then [t; Z.land size 255] else t :: Z.land (Z.lor 128 (zlen (be_bytes size))) 255 :: be_bytes size.
(** der_node.py 105-113: the long form of the length *)
Fixpoint decodeLength (lenCount : nat) (w : bytes) (size : Z) : res (bytes * Z) :=
  match lenCount with
  | O => Ok ([], size)
  | S k => match w with
           | [] => Err OtherError
           | b :: w' => r <-- decodeLength k w' (256 * size + b) ;; Ok (b :: fst r, snd r)
           end
  end.
(** der_node.py 76-115: _decodeHeader: the header and the size *)
Definition decodeHeader (w : bytes) : res (bytes * Z) :=
  match w with
  | t :: s :: w' =>
      if negb (Z.land s 128 =? 0)
      then r <-- decodeLength (Z.to_nat (Z.land s 127)) w' 0 ;; Ok (t :: s :: fst r, snd r)
      else Ok ([t; s], s)
  | _ => Err IndexError
  end.

(** der_node.py 45-51, 249-261, 270-280: getSize (updateSize when a child changed) *)
Fixpoint getSize (n : node) : node * Z :=
  match n with
  | Leaf t h p => (n, zlen h + zlen p)
  | Seq h size changed l =>
      let '(l', size') := if (changed : bool) then (map (fun c => fst (getSize c)) l, fold_right Z.add 0 (map (fun c => snd (getSize c)) l)) else (l, size) in
      let h' := encodeHeader T_SEQUENCE size' in
      (Seq h' size' false l', size' + zlen h')
  end.
(** der_node.py 117-123, 305-319: encode; [fuel] is the depth *)
Fixpoint encode (fuel : nat) (n : node) : node * bytes :=
  match n with
  | Leaf t h p => (n, h ++ p)
  | Seq h size changed l =>
      let l1 := map (fun c => fst (getSize c)) l in
      let size' := fold_right Z.add 0 (map (fun c => snd (getSize c)) l) in
      let h' := encodeHeader T_SEQUENCE size' in
      match fuel with
      | O => (Seq h' size' false l1, h')
      | S f => (Seq h' size' false (map (fun c => fst (encode f c)) l1), h' ++ concat (map (fun c => snd (encode f c)) l1))
      end
  end.
Fixpoint depth (n : node) : nat := match n with Leaf _ _ _ => 0%nat | Seq _ _ _ l => S (fold_right Nat.max 0%nat (map depth l)) end.
Definition node_encode (n : node) : node * bytes := encode (depth n) n.

(** der_node.py 282-295: addChild without notification, and 282-303 with it *)
Definition addChild (n c : node) : node :=
  match n with Leaf _ _ _ => n | Seq h size _ l => Seq h size true (l ++ [c]) end.
(** An operation at a descendant: [f] at the path; with [notify] the nodes above are flagged
    (der_node.py 297-303: setChildChanged) *)
Fixpoint at_path (notify : bool) (f : node -> node) (path : list nat) (n : node) : node :=
  match path with
  | [] => f n
  | i :: p =>
      match n with
      | Leaf _ _ _ => n
      | Seq h size changed l =>
          Seq h size (if notify then true else changed) (firstn i l ++ match skipn i l with c :: r => at_path notify f p c :: r | [] => [] end)
      end
  end.

(** ** parse *)
Definition is_leaf_type (t : Z) : bool := existsb (Z.eqb t) [T_BOOLEAN; T_INTEGER; T_BITSTRING; T_OCTETSTRING; T_NULL; T_OID; T_PRINTABLE; T_TIME].
(** der_node.py 143-185: parse; 125-141: decode; 321-339: decode of a structure *)
Fixpoint parse (fuel : nat) (w : bytes) : res node :=
  match w with
  | [] => Err OtherError
  | t :: _ =>
      if is_leaf_type t then
        h <-- decodeHeader w ;;
        Ok (Leaf t (fst h) (if 0 <? snd h then zslice w (zlen (fst h)) (zlen (fst h) + snd h) else []))
      else if t =? T_SEQUENCE then
        match fuel with
        | O => Err OutOfFuel
        | S f =>
            h <-- decodeHeader w ;;
            l <-- (fix loop (k : nat) (w : bytes) (accSize : Z) : res (list node) :=
                     if accSize <? snd h then
                       match k with
                       | O => Err OutOfFuel
                       | S k' =>
                           c <-- parse f w ;;
                           let '(c', size) := getSize c in
                           r <-- loop k' (skipn (Z.to_nat size) w) (accSize + size) ;; Ok (c' :: r)
                       end
                     else Ok []) (S (length w)) (skipn (length (fst h)) w) 0 ;;
            Ok (Seq (fst h) (snd h) (negb (zlen l =? 0)) l)
        end
      else Err OtherError
  end.
Definition node_parse (inputBuf : bytes) (startIdx : nat) : res node := parse (length inputBuf) (skipn startIdx inputBuf).

(** ** The constructors and toVal *)
(** der_node.py 371-386: DerBoolean *)
Definition der_boolean (val : bool) : node := Leaf T_BOOLEAN (encodeHeader T_BOOLEAN 1) [if val then 255 else 0].
Definition boolean_toVal (payload : bytes) : res bool := match payload with [] => Err IndexError | b :: _ => Ok (negb (b =? 0)) end.
(** der_node.py 388-427: DerInteger *)
Definition integer_bytes (n : Z) : bytes :=
  let temp := if n =? 0 then [0] else be_bytes n in
  match temp with b :: _ => if 128 <=? b then 0 :: temp else temp | [] => temp end.
Definition der_integer (n : Z) : res node :=
  if n <? 0 then Err OtherError else let p := integer_bytes n in Ok (Leaf T_INTEGER (encodeHeader T_INTEGER (zlen p)) p).
Definition integer_toVal (payload : bytes) : res Z :=
  match payload with
  | b :: _ => if 128 <=? b then Err OtherError else Ok (fold_left (fun r x => r * 256 + x) payload 0)
  | [] => Ok 0
  end.
(** der_node.py 429-445: DerBitString *)
Definition der_bitString (b : bytes) (padding : Z) : res node :=
  if (0 <=? padding) && (padding <? 256) then let p := padding :: b in Ok (Leaf T_BITSTRING (encodeHeader T_BITSTRING (zlen p)) p) else Err ValueError.
(** der_node.py 345-369, 447-454, 573-588: DerByteString, DerOctetString, DerPrintableString *)
Definition der_byteString (t : Z) (b : bytes) : node := Leaf t (encodeHeader t (zlen b)) b.
(** der_node.py 456-462: DerNull *)
Definition der_null : node := Leaf T_NULL (encodeHeader T_NULL 0) [].
(** der_node.py 509-526: _encode128 *)
Fixpoint loop128 (fuel : nat) (v : Z) (acc : bytes) : bytes :=
  if v =? 0 then acc else match fuel with O => acc | S f => loop128 f (v / 128) (Z.lor (Z.land v 127) 128 :: acc) end.
Definition encode128 (v : Z) : bytes :=
  if v <? 128 then [Z.land v 127] else loop128 (S (Z.to_nat (Z.log2 v))) (v / 128) [Z.land v 127].
(** der_node.py 481-507: prepareEncoding *)
Definition oid_payload (value : list Z) : res bytes :=
  match value with
  | [] => Err OtherError
  | a :: r =>
      if (0 <=? a) && (a <=? 2) then
        match r with
        | [] => Ok (encode128 (a * 40))
        | b :: r' => if (0 <=? b) && (b <=? 39) then Ok (encode128 (a * 40 + b) ++ flat_map encode128 r') else Err OtherError
        end
      else Err OtherError
  end.
(** der_node.py 464-479: DerOid of an OID or of the integers of a str *)
Definition der_oid (value : list Z) : res node := p <-- oid_payload value ;; Ok (Leaf T_OID (encodeHeader T_OID (zlen p)) p).
(** der_node.py 528-543: _decode128: the number and the rest of the payload *)
Fixpoint decode128 (p : bytes) (result : Z) : res (Z * bytes) :=
  match p with
  | [] => Err IndexError
  | b :: p' => if negb (Z.land b 128 =? 0) then decode128 p' (128 * result + b - 128) else Ok (result * 128 + b, p')
  end.
Fixpoint oid_components (fuel : nat) (p : bytes) : res (list Z) :=
  match p with
  | [] => Ok []
  | _ => match fuel with
         | O => Err OutOfFuel
         | S f => r <-- decode128 p 0 ;; l <-- oid_components f (snd r) ;; Ok (fst r :: l)
         end
  end.
(** der_node.py 545-561: toVal, the numbers that are joined with periods; [floor40] is
    math.floor(x/40), a division of floats *)
Definition oid_toVal (floor40 : Z -> Z) (payload : bytes) : res (list Z) :=
  l <-- oid_components (length payload) payload ;;
  match l with [] => Err IndexError | x :: r => Ok (floor40 x :: x mod 40 :: r) end.

(** ** GeneralizedTime *)
(** der_node.py 603-615: toDerTimeString, of whole milliseconds: the fraction of the second is dropped *)
Definition toDerTimeString (ms : Z) : res (list Z) :=
  t <-- dt_fromSeconds (ms / 1000) ;;
  Ok (str_int (dt_y t) ++ two (dt_m t) ++ two (dt_d t) ++ two (dt_H t) ++ two (dt_M t) ++ two (dt_S t) ++ [90]).
Definition der_time (ms : Z) : res node := p <-- toDerTimeString ms ;; Ok (Leaf T_TIME (encodeHeader T_TIME (zlen p)) p).
(** der_node.py 617-628: toVal.  Simplified: strptime of a text which is not fourteen digits and a Z
    is an error (Python also takes some texts with fewer digits). *)
Definition time_toVal (payload : bytes) : res Z :=
  if (zlen payload =? 15) && forallb (fun c => (48 <=? c) && (c <=? 57)) (firstn 14 payload) && zlist_eqb (skipn 14 payload) [90] then
    y <-- int_or (zslice payload 0 4) ;; m <-- int_or (zslice payload 4 6) ;; d <-- int_or (zslice payload 6 8) ;;
    H <-- int_or (zslice payload 8 10) ;; M <-- int_or (zslice payload 10 12) ;; S <-- int_or (zslice payload 12 14) ;;
    t <-- dt_new y m d H M S ;; Ok (dt_seconds t * 1000)
  else Err ValueError.

(** ** OID *)
(** oid.py 38-45: __str__ *)
Definition oid_str (l : list Z) : list Z :=
  match l with [] => [] | x :: r => str_int x ++ flat_map (fun y => 46 :: str_int y) r end.
(** oid.py 47-57: __eq__; the other object is an OID, or something else with or without _oid *)
Inductive other_object : Type := IsOID (l : list Z) | NotOID (_oid : option (list Z)).
Definition oid_eq (a : list Z) (other : other_object) : res bool :=
  match other with
  | IsOID _ => Ok false
  | NotOID None => Err AttributeError
  | NotOID (Some b) => Ok ((zlen a =? zlen b) && zlist_eqb a b)
  end.
