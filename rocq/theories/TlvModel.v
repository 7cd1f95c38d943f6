(** * Model of the TLV encoder and decoder.

    python/pyndn/util/dynamic_byte_array.py,
    python/pyndn/encoding/tlv/tlv_encoder.py,
    python/pyndn/encoding/tlv/tlv_decoder.py *)
From Verif Require Import Base.
Local Open Scope res_scope.

(** ** Python bytearray primitives (language semantics) *)

(** [bytearray(n)] *)
Definition py_bytearray (n : Z) : bytes := repeat 0 (Z.to_nat n).

(** Normalisation of a slice bound: negative counts from the end, then clamp. *)
Definition py_bound (len i : Z) : Z :=
  let j := if i <? 0 then i + len else i in
  Z.max 0 (Z.min j len).

(** [a[i:j] = v] *)
Definition py_slice_assign (a : bytes) (i j : Z) (v : bytes) : bytes :=
  let n := zlen a in
  let lo := py_bound n i in
  let hi := Z.max lo (py_bound n j) in
  firstn (Z.to_nat lo) a ++ v ++ skipn (Z.to_nat hi) a.

(** [a[i:] = v] *)
Definition py_slice_assign_from (a : bytes) (i : Z) (v : bytes) : bytes :=
  firstn (Z.to_nat (py_bound (zlen a) i)) a ++ v.

(** [a[i] = v]; the values assigned are always masked with 0xff. *)
Definition py_setitem (a : bytes) (i : Z) (v : Z) : res bytes :=
  let n := zlen a in
  let j := if i <? 0 then i + n else i in
  if (0 <=? j) && (j <? n)
  then Ok (firstn (Z.to_nat j) a ++ v :: skipn (S (Z.to_nat j)) a)
  else Err IndexError.

(** ** DynamicByteArray (the part used by TlvEncoder) *)

(** dynamic_byte_array.py 76-95: DynamicByteArray.ensureLengthFromBack *)
Definition dba_ensureLengthFromBack (a : bytes) (length : Z) : bytes :=
  if length <=? zlen a then a
  else
    let newLength0 := zlen a * 2 in
    let newLength := if newLength0 <? length then length else newLength0 in
    py_slice_assign_from (py_bytearray newLength) (- zlen a) a.

(** dynamic_byte_array.py 97-115: DynamicByteArray.copyFromBack *)
Definition dba_copyFromBack (a : bytes) (value : bytes) (offsetFromBack : Z) : bytes :=
  let a := dba_ensureLengthFromBack a offsetFromBack in
  let startIndex := zlen a - offsetFromBack in
  py_slice_assign a startIndex (startIndex + zlen value) value.

(** dynamic_byte_array.py 37-56: DynamicByteArray.ensureLength *)
Definition dba_ensureLength (a : bytes) (length : Z) : bytes :=
  if length <=? zlen a then a
  else
    let newLength0 := zlen a * 2 in
    let newLength := if newLength0 <? length then length else newLength0 in
    py_slice_assign (py_bytearray newLength) 0 (zlen a) a.

(** dynamic_byte_array.py 58-74: DynamicByteArray.copy *)
Definition dba_copy (a : bytes) (value : bytes) (offset : Z) : bytes :=
  let a := dba_ensureLength a (offset + zlen value) in
  py_slice_assign a offset (offset + zlen value) value.

(** ** TlvEncoder on the real array and length *)

(** tlv_encoder.py 35-39: fields _output._array and _length *)
Record lenc : Type := LEnc { le_array : bytes; le_length : Z }.

(** tlv_encoder.py 35-39: TlvEncoder.__init__ *)
Definition le_new (initialCapacity : Z) : lenc := LEnc (py_bytearray initialCapacity) 0.

(** The statement block
    [self._length += k; ensureLengthFromBack; self._output._array[-self._length + i] = b_i].
    [sets a L 0 bs] is the run of item assignments. *)
Fixpoint le_sets (a : bytes) (L i : Z) (bs : list Z) : res bytes :=
  match bs with
  | [] => Ok a
  | b :: bs' => a' <-- py_setitem a (- L + i) b ;; le_sets a' L (i + 1) bs'
  end.

Definition le_put (e : lenc) (bs : list Z) : res lenc :=
  let L := le_length e + zlen bs in
  let a := dba_ensureLengthFromBack (le_array e) L in
  a' <-- le_sets a L 0 bs ;; Ok (LEnc a' L).

(** tlv_encoder.py 52-89: the byte values stored by TlvEncoder.writeVarNumber *)
Definition varNumber_bytes (n : Z) : list Z :=
  if n <? 253 then [Z.land n 255]
  else if n <=? 65535 then [253; Z.land (Z.shiftr n 8) 255; Z.land n 255]
  else if n <=? 4294967295 then
    [254; Z.land (Z.shiftr n 24) 255; Z.land (Z.shiftr n 16) 255;
     Z.land (Z.shiftr n 8) 255; Z.land n 255]
  else
    [255; Z.land (Z.shiftr n 56) 255; Z.land (Z.shiftr n 48) 255;
     Z.land (Z.shiftr n 40) 255; Z.land (Z.shiftr n 32) 255;
     Z.land (Z.shiftr n 24) 255; Z.land (Z.shiftr n 16) 255;
     Z.land (Z.shiftr n 8) 255; Z.land n 255].

(** tlv_encoder.py 104-140: the byte values stored by writeNonNegativeInteger
    once the sign check has passed *)
Definition nonNegativeInteger_bytes (n : Z) : list Z :=
  if n <=? 255 then [Z.land n 255]
  else if n <=? 65535 then [Z.land (Z.shiftr n 8) 255; Z.land n 255]
  else if n <=? 4294967295 then
    [Z.land (Z.shiftr n 24) 255; Z.land (Z.shiftr n 16) 255;
     Z.land (Z.shiftr n 8) 255; Z.land n 255]
  else
    [Z.land (Z.shiftr n 56) 255; Z.land (Z.shiftr n 48) 255;
     Z.land (Z.shiftr n 40) 255; Z.land (Z.shiftr n 32) 255;
     Z.land (Z.shiftr n 24) 255; Z.land (Z.shiftr n 16) 255;
     Z.land (Z.shiftr n 8) 255; Z.land n 255].

(** tlv_encoder.py 52-89: TlvEncoder.writeVarNumber *)
Definition le_writeVarNumber (n : Z) (e : lenc) : res lenc := le_put e (varNumber_bytes n).

(** tlv_encoder.py 91-102: TlvEncoder.writeTypeAndLength *)
Definition le_writeTypeAndLength (type length : Z) (e : lenc) : res lenc :=
  e <-- le_writeVarNumber length e ;; le_writeVarNumber type e.

(** tlv_encoder.py 104-140: TlvEncoder.writeNonNegativeInteger *)
Definition le_writeNonNegativeInteger (value : Z) (e : lenc) : res lenc :=
  if value <? 0 then Err ValueError else le_put e (nonNegativeInteger_bytes value).

(** tlv_encoder.py 142-154: TlvEncoder.writeNonNegativeIntegerTlv *)
Definition le_writeNonNegativeIntegerTlv (type value : Z) (e : lenc) : res lenc :=
  let saveNBytes := le_length e in
  e <-- le_writeNonNegativeInteger value e ;;
  le_writeTypeAndLength type (le_length e - saveNBytes) e.

(** tlv_encoder.py 156-166: TlvEncoder.writeOptionalNonNegativeIntegerTlv *)
Definition le_writeOptionalNonNegativeIntegerTlv (type : Z) (value : option Z) (e : lenc) : res lenc :=
  match value with
  | Some v => if 0 <=? v then le_writeNonNegativeIntegerTlv type v e else Ok e
  | None => Ok e
  end.

(** tlv_encoder.py 182-195: TlvEncoder.writeBuffer *)
Definition le_writeBuffer (buffer : option bytes) (e : lenc) : res lenc :=
  match buffer with
  | None => Ok e
  | Some b =>
      let L := le_length e + zlen b in
      Ok (LEnc (dba_copyFromBack (le_array e) b L) L)
  end.

(** tlv_encoder.py 197-214: TlvEncoder.writeBlobTlv *)
Definition le_writeBlobTlv (type : Z) (value : option bytes) (e : lenc) : res lenc :=
  match value with
  | None => le_writeTypeAndLength type 0 e
  | Some v => e <-- le_writeBuffer (Some v) e ;; le_writeTypeAndLength type (zlen v) e
  end.

(** tlv_encoder.py 216-227: TlvEncoder.writeOptionalBlobTlv *)
Definition le_writeOptionalBlobTlv (type : Z) (value : option bytes) (e : lenc) : res lenc :=
  match value with
  | Some v => if 0 <? zlen v then le_writeBlobTlv type (Some v) e else Ok e
  | None => Ok e
  end.

(** tlv_encoder.py 229-238: TlvEncoder.getOutput *)
Definition le_getOutput (e : lenc) : bytes :=
  skipn (Z.to_nat (zlen (le_array e) - le_length e)) (le_array e).

(** The public write operations, as data, to speak about call sequences. *)
Inductive wop : Type :=
| WVarNumber (n : Z)
| WTypeAndLength (type length : Z)
| WNonNegativeInteger (n : Z)
| WNonNegativeIntegerTlv (type n : Z)
| WOptionalNonNegativeIntegerTlv (type : Z) (n : option Z)
| WBuffer (b : option bytes)
| WBlobTlv (type : Z) (b : option bytes)
| WOptionalBlobTlv (type : Z) (b : option bytes).

Definition le_op (o : wop) : lenc -> res lenc :=
  match o with
  | WVarNumber n => le_writeVarNumber n
  | WTypeAndLength t l => le_writeTypeAndLength t l
  | WNonNegativeInteger n => le_writeNonNegativeInteger n
  | WNonNegativeIntegerTlv t n => le_writeNonNegativeIntegerTlv t n
  | WOptionalNonNegativeIntegerTlv t n => le_writeOptionalNonNegativeIntegerTlv t n
  | WBuffer b => le_writeBuffer b
  | WBlobTlv t b => le_writeBlobTlv t b
  | WOptionalBlobTlv t b => le_writeOptionalBlobTlv t b
  end.

Fixpoint le_run (ops : list wop) (e : lenc) : res lenc :=
  match ops with
  | [] => Ok e
  | o :: ops' => e' <-- le_op o e ;; le_run ops' e'
  end.

(** ** TlvEncoder, abstract: the output bytes so far

    The same methods over the bytes already written (what getOutput would
    return). The wire format encoders below use this form; property C03 proves
    that it agrees with the array form for every call sequence. [len(encoder)]
    (tlv_encoder.py 41-50) is [zlen out]. *)
Definition e_writeVarNumber (n : Z) (out : bytes) : bytes := varNumber_bytes n ++ out.

Definition e_writeTypeAndLength (type length : Z) (out : bytes) : bytes :=
  e_writeVarNumber type (e_writeVarNumber length out).

Definition e_writeNonNegativeInteger (value : Z) (out : bytes) : res bytes :=
  if value <? 0 then Err ValueError else Ok (nonNegativeInteger_bytes value ++ out).

Definition e_writeNonNegativeIntegerTlv (type value : Z) (out : bytes) : res bytes :=
  let saveNBytes := zlen out in
  out <-- e_writeNonNegativeInteger value out ;;
  Ok (e_writeTypeAndLength type (zlen out - saveNBytes) out).

Definition e_writeOptionalNonNegativeIntegerTlv (type : Z) (value : option Z) (out : bytes) : res bytes :=
  match value with
  | Some v => if 0 <=? v then e_writeNonNegativeIntegerTlv type v out else Ok out
  | None => Ok out
  end.

(** tlv_encoder.py 168-180: TlvEncoder.writeOptionalNonNegativeIntegerTlvFromFloat.
    Simplification: float values are modelled as integers, on which int(round(x))
    is the identity. *)
Definition e_writeOptionalNonNegativeIntegerTlvFromFloat := e_writeOptionalNonNegativeIntegerTlv.

Definition e_writeBuffer (buffer : option bytes) (out : bytes) : bytes :=
  match buffer with None => out | Some b => b ++ out end.

Definition e_writeBlobTlv (type : Z) (value : option bytes) (out : bytes) : bytes :=
  match value with
  | None => e_writeTypeAndLength type 0 out
  | Some v => e_writeTypeAndLength type (zlen v) (e_writeBuffer (Some v) out)
  end.

Definition e_writeOptionalBlobTlv (type : Z) (value : option bytes) (out : bytes) : bytes :=
  match value with
  | Some v => if 0 <? zlen v then e_writeBlobTlv type (Some v) out else out
  | None => out
  end.

Definition e_op (o : wop) (out : bytes) : res bytes :=
  match o with
  | WVarNumber n => Ok (e_writeVarNumber n out)
  | WTypeAndLength t l => Ok (e_writeTypeAndLength t l out)
  | WNonNegativeInteger n => e_writeNonNegativeInteger n out
  | WNonNegativeIntegerTlv t n => e_writeNonNegativeIntegerTlv t n out
  | WOptionalNonNegativeIntegerTlv t n => e_writeOptionalNonNegativeIntegerTlv t n out
  | WBuffer b => Ok (e_writeBuffer b out)
  | WBlobTlv t b => Ok (e_writeBlobTlv t b out)
  | WOptionalBlobTlv t b => Ok (e_writeOptionalBlobTlv t b out)
  end.

Fixpoint e_run (ops : list wop) (out : bytes) : res bytes :=
  match ops with
  | [] => Ok out
  | o :: ops' => out' <-- e_op o out ;; e_run ops' out'
  end.

(** ** TlvDecoder

    The decoder object is the input and the current offset; the input never
    changes, so a decoder method is a function of both returning the new offset.
    Simplification: offsets are never negative (they start at 0 and only
    [seek] to a saved offset), so Python's negative indexing does not arise. *)
Definition dec (A : Type) : Type := bytes -> Z -> res (A * Z).

Definition dret {A} (a : A) : dec A := fun _ off => Ok (a, off).
Definition derr {A} (e : exn) : dec A := fun _ _ => Err e.
Definition dbind {A B} (m : dec A) (k : A -> dec B) : dec B :=
  fun inp off => match m inp off with Ok (a, off') => k a inp off' | Err e => Err e end.

Declare Scope dec_scope.
Delimit Scope dec_scope with dec.
Notation "x <~ m ;; k" := (dbind m (fun x => k))
  (at level 61, m at next level, right associativity) : dec_scope.
Notation "m ;;; k" := (dbind m (fun _ => k))
  (at level 61, right associativity) : dec_scope.

(** [self._input[i]] *)
Definition byte_at (inp : bytes) (i : Z) : res Z :=
  if (0 <=? i) && (i <? zlen inp) then Ok (nth (Z.to_nat i) inp 0) else Err IndexError.

(** Sum of shifted bytes [(input[off] << 8*(k-1)) + ... + input[off+k-1]], as the
    code writes out for k = 2, 4, 8. The first out-of-range index raises. *)
Fixpoint read_be (k : nat) (inp : bytes) (i : Z) : res Z :=
  match k with
  | O => Ok 0
  | S k' =>
      b <-- byte_at inp i ;;
      rest <-- read_be k' inp (i + 1) ;;
      Ok (Z.shiftl b (8 * Z.of_nat k') + rest)
  end.

(** tlv_decoder.py 59-91: TlvDecoder.readExtendedVarNumber (may raise IndexError) *)
Definition d_readExtendedVarNumber (firstOctet : Z) : dec Z := fun inp off =>
  if firstOctet =? 253 then r <-- read_be 2 inp off ;; Ok (r, off + 2)
  else if firstOctet =? 254 then r <-- read_be 4 inp off ;; Ok (r, off + 4)
  else r <-- read_be 8 inp off ;; Ok (r, off + 8).

(** [try: ... except IndexError: raise ValueError] *)
Definition index_to_value {A} (r : res A) : res A :=
  match r with Err IndexError => Err ValueError | r => r end.

(** tlv_decoder.py 41-57: TlvDecoder.readVarNumber *)
Definition d_readVarNumber : dec Z := fun inp off =>
  index_to_value
    (firstOctet <-- byte_at inp off ;;
     if firstOctet <? 253 then Ok (firstOctet, off + 1)
     else d_readExtendedVarNumber firstOctet inp (off + 1)).

(** tlv_decoder.py 381-388: TlvDecoder.getOffset *)
Definition d_getOffset : dec Z := fun _ off => Ok (off, off).

(** tlv_decoder.py 390-396: TlvDecoder.seek *)
Definition d_seek (o : Z) : dec unit := fun _ _ => Ok (tt, o).

(** [self._offset += n] *)
Definition d_skip (n : Z) : dec unit := fun _ off => Ok (tt, off + n).

(** [len(self._input)] *)
Definition d_inputLength : dec Z := fun inp off => Ok (zlen inp, off).

Local Open Scope dec_scope.

(** tlv_decoder.py 93-114: TlvDecoder.readTypeAndLength *)
Definition d_readTypeAndLength (expectedType : Z) : dec Z :=
  type <~ d_readVarNumber ;;
  if negb (type =? expectedType) then derr ValueError
  else
    length <~ d_readVarNumber ;;
    off <~ d_getOffset ;;
    n <~ d_inputLength ;;
    if n <? off + length then derr ValueError else dret length.

(** tlv_decoder.py 116-131: TlvDecoder.readNestedTlvsStart *)
Definition d_readNestedTlvsStart (expectedType : Z) : dec Z :=
  l <~ d_readTypeAndLength expectedType ;;
  off <~ d_getOffset ;;
  dret (l + off).

(** tlv_decoder.py 153-166: the skip loop of finishNestedTlvs. The loop bound is
    the number of input bytes (each iteration consumes at least two). *)
Fixpoint d_finishLoop (fuel : nat) (endOffset : Z) (skipCritical : bool) : dec unit :=
  off <~ d_getOffset ;;
  if off <? endOffset then
    match fuel with
    | O => derr OutOfFuel
    | S fuel' =>
        type <~ d_readVarNumber ;;
        let critical := (type <=? 31) || (Z.land type 1 =? 1) in
        if critical && negb skipCritical then derr ValueError
        else
          length <~ d_readVarNumber ;;
          d_skip length ;;;
          off <~ d_getOffset ;;
          n <~ d_inputLength ;;
          if n <? off then derr ValueError
          else d_finishLoop fuel' endOffset skipCritical
    end
  else dret tt.

(** tlv_decoder.py 133-170: TlvDecoder.finishNestedTlvs *)
Definition d_finishNestedTlvs (endOffset : Z) (skipCritical : bool) : dec unit := fun inp off =>
  if off =? endOffset then Ok (tt, off)
  else
    (d_finishLoop (S (length inp)) endOffset skipCritical ;;;
     off <~ d_getOffset ;;
     if negb (off =? endOffset) then derr ValueError else dret tt) inp off.

(** tlv_decoder.py 172-195: TlvDecoder.peekType *)
Definition d_peekType (expectedType endOffset : Z) : dec bool :=
  off <~ d_getOffset ;;
  if endOffset <=? off then dret false
  else
    type <~ d_readVarNumber ;;
    d_seek off ;;;
    dret (type =? expectedType).

(** tlv_decoder.py 197-234: TlvDecoder.readNonNegativeInteger *)
Definition d_readNonNegativeInteger (length : Z) : dec Z := fun inp off =>
  index_to_value
    (r <-- (if length =? 1 then read_be 1 inp off
            else if length =? 2 then read_be 2 inp off
            else if length =? 4 then read_be 4 inp off
            else if length =? 8 then read_be 8 inp off
            else Err ValueError) ;;
     Ok (r, off + length))%res.

(** tlv_decoder.py 236-249: TlvDecoder.readNonNegativeIntegerTlv *)
Definition d_readNonNegativeIntegerTlv (expectedType : Z) : dec Z :=
  length <~ d_readTypeAndLength expectedType ;;
  d_readNonNegativeInteger length.

(** tlv_decoder.py 251-268: TlvDecoder.readOptionalNonNegativeIntegerTlv *)
Definition d_readOptionalNonNegativeIntegerTlv (expectedType endOffset : Z) : dec (option Z) :=
  b <~ d_peekType expectedType endOffset ;;
  if b : bool then v <~ d_readNonNegativeIntegerTlv expectedType ;; dret (Some v)
  else dret None.

(** tlv_decoder.py 270-290: readOptionalNonNegativeIntegerTlvAsFloat.
    Simplification: the float is modelled as the integer it holds. *)
Definition d_readOptionalNonNegativeIntegerTlvAsFloat := d_readOptionalNonNegativeIntegerTlv.

(** tlv_decoder.py 398-411: TlvDecoder.getSlice *)
Definition d_getSlice (a b : Z) : dec bytes := fun inp off => Ok (zslice inp a b, off).

(** tlv_decoder.py 292-311: TlvDecoder.readBlobTlv *)
Definition d_readBlobTlv (expectedType : Z) : dec bytes :=
  length <~ d_readTypeAndLength expectedType ;;
  off <~ d_getOffset ;;
  result <~ d_getSlice off (off + length) ;;
  d_skip length ;;;
  dret result.

(** tlv_decoder.py 313-332: TlvDecoder.readOptionalBlobTlv *)
Definition d_readOptionalBlobTlv (expectedType endOffset : Z) : dec (option bytes) :=
  b <~ d_peekType expectedType endOffset ;;
  if b : bool then v <~ d_readBlobTlv expectedType ;; dret (Some v)
  else dret None.

(** tlv_decoder.py 334-354: TlvDecoder.readBooleanTlv *)
Definition d_readBooleanTlv (expectedType endOffset : Z) : dec bool :=
  b <~ d_peekType expectedType endOffset ;;
  if b : bool then
    length <~ d_readTypeAndLength expectedType ;;
    d_skip length ;;;
    dret true
  else dret false.

(** tlv_decoder.py 356-367: TlvDecoder.skipTlv *)
Definition d_skipTlv (expectedType : Z) : dec unit :=
  length <~ d_readTypeAndLength expectedType ;;
  d_skip length.

(** tlv_decoder.py 369-379: TlvDecoder.skipOptionalTlv *)
Definition d_skipOptionalTlv (expectedType endOffset : Z) : dec unit :=
  b <~ d_peekType expectedType endOffset ;;
  if b : bool then d_skipTlv expectedType else dret tt.
