(** * Model of Name and Name.Component (python/pyndn/name.py) and the parts of
      Blob they use (python/pyndn/util/blob.py). *)
From Verif Require Import Base TlvModel.
Local Open Scope res_scope.

(** component_type.py: ComponentType *)
Definition CT_IMPLICIT : Z := 1.
Definition CT_PARAMS : Z := 2.
Definition CT_GENERIC : Z := 8.
Definition CT_OTHER : Z := 32767.

(** name.py 71-97: fields of Name.Component. Simplification: the value Blob is
    never null (the constructor replaces None by an empty Blob). *)
Record comp : Type := Comp { c_type : Z; c_other : Z; c_value : bytes }.

(** name.py 71-97: Name.Component.__init__ with type and otherTypeCode;
    otherTypeCode None is [None]. *)
Definition c_new (value : bytes) (type : option Z) (otherTypeCode : option Z) : res comp :=
  let ty := match type with None => CT_GENERIC | Some t => t end in
  match type with
  | Some t =>
      if t =? CT_OTHER then
        match otherTypeCode with
        | None => Err ValueError
        | Some oc => if oc <? 0 then Err ValueError else Ok (Comp ty oc value)
        end
      else Ok (Comp ty (-1) value)
  | None => Ok (Comp ty (-1) value)
  end.

(** [Name.Component(value)] *)
Definition c_generic (value : bytes) : comp := Comp CT_GENERIC (-1) value.

(** name.py 226-251 *)
Definition c_isGeneric (c : comp) : bool := c_type c =? CT_GENERIC.
Definition c_isImplicitSha256Digest (c : comp) : bool := c_type c =? CT_IMPLICIT.
Definition c_isParametersSha256Digest (c : comp) : bool := c_type c =? CT_PARAMS.

(** blob.py 197-224: Blob.equals for two non-null blobs *)
Definition blob_equals (a b : bytes) : bool := zlist_eqb a b.

(** blob.py 226-259: Blob.compare for two non-null blobs *)
Fixpoint blob_compare (a b : bytes) : Z :=
  match a, b with
  | [], [] => 0
  | [], _ :: _ => -1
  | _ :: _, [] => 1
  | x :: a', y :: b' => if x <? y then -1 else if y <? x then 1 else blob_compare a' b'
  end.

(** name.py 356-369: Name.Component.equals *)
Definition c_equals (a b : comp) : bool :=
  if c_type a =? CT_OTHER then
    blob_equals (c_value a) (c_value b) && (c_type b =? CT_OTHER) && (c_other a =? c_other b)
  else blob_equals (c_value a) (c_value b) && (c_type a =? c_type b).

(** name.py 382-385, 609-611: the effective type code *)
Definition c_typeCode (c : comp) : Z := if c_type c =? CT_OTHER then c_other c else c_type c.

(** name.py 371-398: Name.Component.compare *)
Definition c_compare (a b : comp) : Z :=
  let ma := c_typeCode a in
  let mb := c_typeCode b in
  if ma <? mb then -1
  else if mb <? ma then 1
  else if zlen (c_value a) <? zlen (c_value b) then -1
  else if zlen (c_value b) <? zlen (c_value a) then 1
  else blob_compare (c_value a) (c_value b).

(** name.py 253-265: toNumber *)
Definition c_toNumber (c : comp) : Z := fold_left (fun r b => r * 256 + b) (c_value c) 0.

(** name.py 267-286: toNumberWithMarker *)
Definition c_toNumberWithMarker (c : comp) (marker : Z) : res Z :=
  match c_value c with
  | [] => Err RuntimeError
  | b :: rest => if b =? marker then Ok (fold_left (fun r b => r * 256 + b) rest 0) else Err RuntimeError
  end.

(** name.py 400-421: fromNumber (default type) *)
Definition c_fromNumber (number : Z) : res comp :=
  e <-- le_writeNonNegativeInteger number (le_new 8) ;; Ok (c_generic (le_getOutput e)).

(** name.py 423-439: fromNumberWithMarker *)
Definition c_fromNumberWithMarker (number marker : Z) : res comp :=
  e <-- le_writeNonNegativeInteger number (le_new 9) ;;
  e <-- le_writeNonNegativeInteger marker e ;;
  Ok (c_generic (le_getOutput e)).

(** name.py 441-507: fromSegment, fromSegmentOffset, fromVersion, fromTimestamp,
    fromSequenceNumber; 288-354: the inverse; 166-224: the tests. *)
Definition MARK_SEGMENT : Z := 0.
Definition MARK_OFFSET : Z := 251.
Definition MARK_VERSION : Z := 253.
Definition MARK_TIMESTAMP : Z := 252.
Definition MARK_SEQUENCE : Z := 254.
Definition c_fromSegment (n : Z) := c_fromNumberWithMarker n MARK_SEGMENT.
Definition c_fromSegmentOffset (n : Z) := c_fromNumberWithMarker n MARK_OFFSET.
Definition c_fromVersion (n : Z) := c_fromNumberWithMarker n MARK_VERSION.
Definition c_fromTimestamp (n : Z) := c_fromNumberWithMarker n MARK_TIMESTAMP.
Definition c_fromSequenceNumber (n : Z) := c_fromNumberWithMarker n MARK_SEQUENCE.
Definition c_toSegment (c : comp) := c_toNumberWithMarker c MARK_SEGMENT.
Definition c_toSegmentOffset (c : comp) := c_toNumberWithMarker c MARK_OFFSET.
Definition c_toVersion (c : comp) := c_toNumberWithMarker c MARK_VERSION.
Definition c_toTimestamp (c : comp) := c_toNumberWithMarker c MARK_TIMESTAMP.
Definition c_toSequenceNumber (c : comp) := c_toNumberWithMarker c MARK_SEQUENCE.
Definition c_hasMarker (marker : Z) (c : comp) : bool :=
  match c_value c with b :: _ => (b =? marker) && c_isGeneric c | [] => false end.
Definition c_isSegment := c_hasMarker MARK_SEGMENT.
Definition c_isSegmentOffset := c_hasMarker MARK_OFFSET.
Definition c_isVersion := c_hasMarker MARK_VERSION.
Definition c_isTimestamp := c_hasMarker MARK_TIMESTAMP.
Definition c_isSequenceNumber := c_hasMarker MARK_SEQUENCE.

(** name.py 509-528: fromImplicitSha256Digest; 530-549: fromParametersSha256Digest *)
Definition c_fromImplicitSha256Digest (digest : bytes) : res comp :=
  if negb (zlen digest =? 32) then Err RuntimeError else Ok (Comp CT_IMPLICIT (-1) digest).
Definition c_fromParametersSha256Digest (digest : bytes) : res comp :=
  if negb (zlen digest =? 32) then Err RuntimeError else Ok (Comp CT_PARAMS (-1) digest).

(** name.py 562-568: the loop of getSuccessor, from the last byte to the first;
    the list is reversed (last byte first). *)
Fixpoint succ_loop (rl : bytes) (carry : bool) : bytes * bool :=
  match rl with
  | [] => ([], carry)
  | b :: rl' =>
      if carry then
        let r := Z.land (b + 1) 255 in
        let '(rest, c) := succ_loop rl' (r =? 0) in (r :: rest, c)
      else let '(rest, c) := succ_loop rl' false in (b :: rest, c)
  end.

(** name.py 551-580: Name.Component.getSuccessor. The other type code is passed
    through unchanged, so the constructor check cannot fail. *)
Definition c_getSuccessor (c : comp) : comp :=
  let '(rr, carry) := succ_loop (rev (c_value c)) true in
  let result := if carry then rev rr ++ [0] else rev rr in
  Comp (c_type c) (c_other c) result.

(** ** Name *)

(** name.py: the _components list. (The change counter is modelled separately.) *)
Definition name := list comp.

(** Python list indexing with negative indices. *)
Definition py_getitem {A} (l : list A) (i : Z) : res A :=
  let j := if i <? 0 then i + zlen l else i in
  if (0 <=? j) && (j <? zlen l) then
    match nth_error l (Z.to_nat j) with Some x => Ok x | None => Err IndexError end
  else Err IndexError.

(** [for i in range(a, a + k): result.append(l[i])] *)
Fixpoint py_collect {A} (l : list A) (a : Z) (k : nat) : res (list A) :=
  match k with
  | O => Ok []
  | S k' => x <-- py_getitem l a ;; rest <-- py_collect l (a + 1) k' ;; Ok (x :: rest)
  end.

(** name.py 752-777: getSubName *)
Definition n_getSubName (n : name) (iStart : Z) (nComponents : option Z) : res name :=
  let iStart := if iStart <? 0 then zlen n - (- iStart) else iStart in
  let count := match nComponents with None => zlen n - iStart | Some k => k end in
  let iEnd := Z.min (iStart + count) (zlen n) in
  py_collect n iStart (Z.to_nat (iEnd - iStart)).

(** name.py 779-792: getPrefix *)
Definition n_getPrefix (n : name) (k : Z) : res name :=
  if k <? 0 then n_getSubName n 0 (Some (zlen n + k)) else n_getSubName n 0 (Some k).

(** name.py 1244-1264: __getitem__ with a slice (step 1) *)
Definition n_slice (n : name) (start stop : option Z) : res name :=
  let norm (k : Z) := if 0 <=? k then Z.min k (zlen n) else Z.max (zlen n + k) 0 in
  let s := match start with None => 0 | Some k => norm k end in
  let e := match stop with None => zlen n | Some k => norm k end in
  n_getSubName n s (Some (e - s)).

(** name.py 946-963: equals. Checking from last to first and stopping at the
    first difference is the same boolean. *)
Fixpoint n_equals (a b : name) : bool :=
  match a, b with
  | [], [] => true
  | x :: a', y :: b' => n_equals a' b' && c_equals x y
  | _, _ => false
  end.

(** name.py 1024-1034: the loop of compare *)
Fixpoint n_compare_loop (a b : name) (ia ib : Z) (count : nat) : res Z :=
  match count with
  | O => Ok 0
  | S k =>
      x <-- py_getitem a ia ;;
      y <-- py_getitem b ib ;;
      let c := c_compare x y in
      if c =? 0 then n_compare_loop a b (ia + 1) (ib + 1) k else Ok c
  end.

(** name.py 965-1043: compare(iStartComponent, nComponents, other,
    iOtherStartComponent, nOtherComponents) *)
Definition n_compareSub (a : name) (iStart nC : Z) (b : name) (iOther : Z) (nOther : option Z) : res Z :=
  let nOther := match nOther with None => zlen b | Some k => k end in
  let iStart := if iStart <? 0 then zlen a - (- iStart) else iStart in
  let iOther := if iOther <? 0 then zlen b - (- iOther) else iOther in
  let nC := Z.min nC (zlen a - iStart) in
  let nOther := Z.min nOther (zlen b - iOther) in
  let count := Z.min nC nOther in
  c <-- n_compare_loop a b iStart iOther (Z.to_nat count) ;;
  if negb (c =? 0) then Ok c
  else if nC <? nOther then Ok (-1)
  else if nOther <? nC then Ok 1
  else Ok 0.

(** name.py 1005-1009: compare(other) *)
Definition n_compare (a b : name) : res Z := n_compareSub a 0 (zlen a) b 0 None.

(** name.py 1072-1093: match (same remark as for equals); 1095-1105: isPrefixOf *)
Fixpoint n_match_values (a b : name) : bool :=
  match a, b with
  | [], _ => true
  | x :: a', y :: b' => n_match_values a' b' && blob_equals (c_value x) (c_value y)
  | _ :: _, [] => false
  end.
Definition n_match (a b : name) : bool :=
  if zlen b <? zlen a then false else n_match_values a b.
Definition n_isPrefixOf := n_match.

(** name.py 1045-1070: Name.getSuccessor. The literal URI parses to a digest
    component of 32 zero bytes. *)
Definition n_getSuccessor (n : name) : res name :=
  if zlen n =? 0 then Ok [Comp CT_IMPLICIT (-1) (repeat 0 32)]
  else
    p <-- n_getPrefix n (-1) ;;
    last <-- py_getitem n (-1) ;;
    Ok (p ++ [c_getSuccessor last]).
