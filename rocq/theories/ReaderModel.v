(** * Model of the stream reassembly: TlvStructureDecoder and ElementReader.

    python/pyndn/encoding/tlv/tlv_structure_decoder.py,
    python/pyndn/encoding/element_reader.py *)
From Verif Require Import Base TlvModel.
Local Open Scope res_scope.

(** ** TlvStructureDecoder *)

(** tlv_structure_decoder.py 41-45 *)
Definition READ_TYPE := 0.
Definition READ_TYPE_BYTES := 1.
Definition READ_LENGTH := 2.
Definition READ_LENGTH_BYTES := 3.
Definition READ_VALUE_BYTES := 4.

(** tlv_structure_decoder.py 30-39. [sd_first] is self._firstOctet, which Python
    sets on entering READ_LENGTH_BYTES, the only state that reads it. *)
Record sdec : Type := SDec {
  sd_got : bool; sd_offset : Z; sd_state : Z; sd_hlen : Z; sd_useHeader : bool;
  sd_header : bytes; sd_n : Z; sd_first : Z }.
Definition sd_new : sdec := SDec false 0 READ_TYPE 0 false (py_bytearray 8) 0 0.

Definition sd_setOffset (o : Z) (s : sdec) : sdec :=
  SDec (sd_got s) o (sd_state s) (sd_hlen s) (sd_useHeader s) (sd_header s) (sd_n s) (sd_first s).
Definition sd_setState (x : Z) (s : sdec) : sdec :=
  SDec (sd_got s) (sd_offset s) x (sd_hlen s) (sd_useHeader s) (sd_header s) (sd_n s) (sd_first s).
Definition sd_setN (x : Z) (s : sdec) : sdec :=
  SDec (sd_got s) (sd_offset s) (sd_state s) (sd_hlen s) (sd_useHeader s) (sd_header s) x (sd_first s).
Definition sd_setGot (s : sdec) : sdec :=
  SDec true (sd_offset s) (sd_state s) (sd_hlen s) (sd_useHeader s) (sd_header s) (sd_n s) (sd_first s).
Definition sd_setFirst (x : Z) (s : sdec) : sdec :=
  SDec (sd_got s) (sd_offset s) (sd_state s) (sd_hlen s) (sd_useHeader s) (sd_header s) (sd_n s) x.
Definition sd_setHeader (len : Z) (use : bool) (h : bytes) (s : sdec) : sdec :=
  SDec (sd_got s) (sd_offset s) (sd_state s) len use h (sd_n s) (sd_first s).

(** tlv_structure_decoder.py 82-88, 118-124 *)
Definition sd_extSize (firstOctet : Z) : Z :=
  if firstOctet =? 253 then 2 else if firstOctet =? 254 then 4 else 8.

(** tlv_structure_decoder.py 178-184: after reading the length *)
Definition sd_afterLength (s : sdec) : (bool * sdec) + sdec :=
  if sd_n s =? 0 then inl (true, sd_setGot s) else inr (sd_setState READ_VALUE_BYTES s).

(** tlv_structure_decoder.py 73-199: one pass of the loop body; [inl] is return. *)
Definition sd_step (input : bytes) (s : sdec) : res ((bool * sdec) + sdec) :=
  let remaining := zlen input - sd_offset s in
  if sd_state s =? READ_TYPE then
    firstOctet <-- byte_at input (sd_offset s) ;;
    let s := sd_setOffset (sd_offset s + 1) s in
    Ok (inr (if firstOctet <? 253 then sd_setState READ_LENGTH s
             else sd_setState READ_TYPE_BYTES (sd_setN (sd_extSize firstOctet) s)))
  else if sd_state s =? READ_TYPE_BYTES then
    if remaining <? sd_n s then
      Ok (inl (false, sd_setN (sd_n s - remaining) (sd_setOffset (sd_offset s + remaining) s)))
    else Ok (inr (sd_setState READ_LENGTH (sd_setOffset (sd_offset s + sd_n s) s)))
  else if sd_state s =? READ_LENGTH then
    firstOctet <-- byte_at input (sd_offset s) ;;
    let s := sd_setOffset (sd_offset s + 1) s in
    if firstOctet <? 253 then Ok (sd_afterLength (sd_setN firstOctet s))
    else Ok (inr (sd_setState READ_LENGTH_BYTES (sd_setFirst firstOctet (sd_setN (sd_extSize firstOctet) s))))
  else if sd_state s =? READ_LENGTH_BYTES then
    if negb (sd_useHeader s) && (sd_n s <=? remaining) then
      '(n, off) <-- d_readExtendedVarNumber (sd_first s) input (sd_offset s) ;;
      Ok (sd_afterLength (sd_setOffset off (sd_setN n s)))
    else
      let needed := sd_n s - sd_hlen s in
      if remaining <? needed then
        if zlen (sd_header s) <? sd_hlen s + remaining then Err RuntimeError
        else
          let h := py_slice_assign (sd_header s) (sd_hlen s) (sd_hlen s + remaining)
                     (zslice input (sd_offset s) (sd_offset s + remaining)) in
          Ok (inl (false, sd_setHeader (sd_hlen s + remaining) true h
                            (sd_setOffset (sd_offset s + remaining) s)))
      else if zlen (sd_header s) <? sd_hlen s + needed then Err RuntimeError
      else
        let h := py_slice_assign (sd_header s) (sd_hlen s) (sd_hlen s + needed)
                   (zslice input (sd_offset s) (sd_offset s + needed)) in
        '(n, _) <-- d_readExtendedVarNumber (sd_first s) h 0 ;;
        Ok (sd_afterLength (sd_setN n (sd_setHeader (sd_hlen s) true h
                              (sd_setOffset (sd_offset s + needed) s))))
  else if sd_state s =? READ_VALUE_BYTES then
    if remaining <? sd_n s then
      Ok (inl (false, sd_setN (sd_n s - remaining) (sd_setOffset (sd_offset s + remaining) s)))
    else Ok (inl (true, sd_setGot (sd_setOffset (sd_offset s + sd_n s) s)))
  else Err RuntimeError.

(** tlv_structure_decoder.py 67-71: while True *)
Fixpoint sd_loop (fuel : nat) (input : bytes) (s : sdec) : res (bool * sdec) :=
  match fuel with
  | O => Err OutOfFuel
  | S f =>
      if zlen input <=? sd_offset s then Ok (false, s)
      else r <-- sd_step input s ;;
           match r with inl x => Ok x | inr s' => sd_loop f input s' end
  end.

(** tlv_structure_decoder.py 47-199: findElementEnd. The loop bound 6 is the
    number of states plus one (each pass that does not return moves on). *)
Definition sd_findElementEnd (input : bytes) (s : sdec) : res (bool * sdec) :=
  if sd_got s then Ok (true, s) else sd_loop 6 input s.

(** ** ElementReader *)

(** element_reader.py 38-43 *)
Record er : Type := ER { er_use : bool; er_partial : bytes; er_len : Z; er_sd : sdec }.
Definition er_new : er := ER false (py_bytearray 1000) 0 sd_new.

(** util/common.py: MAX_NDN_PACKET_SIZE *)
Definition MAX_NDN_PACKET_SIZE := 8800.

Section Listener.
(** The application's onReceivedElement: [Some e] if it raises. *)
Variable listen : bytes -> option exn.

(** Result of one onReceivedData call: new state, elements passed to the
    listener in order, exception raised (if any). *)
Definition er_result : Type := (er * list bytes * option exn)%type.
Definition er_deliver (e : bytes) (r : er_result) : er_result :=
  let '(st, es, x) := r in (st, e :: es, x).

(** element_reader.py 45-129: onReceivedData. Each pass of the loop consumes at
    least one byte of [data]; [fuel] = number of bytes + 1. *)
Fixpoint er_loop (fuel : nat) (st : er) (data : bytes) : er_result :=
  match fuel with
  | O => (st, [], Some OutOfFuel)
  | S f =>
    if negb (er_use st) && (zlen data <=? 0) then (st, [], None)
    else
      match sd_findElementEnd data (sd_setOffset 0 (er_sd st)) with
      | Err ValueError => (ER false (er_partial st) (er_len st) sd_new, [], Some ValueError)
      | Err e => (st, [], Some e)  (* not caught; the decoder's changes before the raise are not tracked *)
      | Ok (true, sd) =>
          let offset := sd_offset sd in
          let '(element, st1) :=
            if er_use st then
              let p := dba_copy (er_partial st) (zslice data 0 offset) (er_len st) in
              let len := er_len st + offset in
              (zslice p 0 len, ER false p len sd_new)
            else (zslice data 0 offset, ER false (er_partial st) (er_len st) sd_new) in
          let data := zslice data offset (zlen data) in
          match listen element with
          | Some e => (st1, [element], Some e)
          | None =>
              if zlen data =? 0 then (st1, [element], None)
              else er_deliver element (er_loop f st1 data)
          end
      | Ok (false, sd) =>
          let len := if er_use st then er_len st else 0 in
          if MAX_NDN_PACKET_SIZE <? len + zlen data
          then (ER false (er_partial st) len sd_new, [], Some ValueError)
          else (ER true (dba_copy (er_partial st) data len) (len + zlen data) sd, [], None)
      end
  end.
Definition er_onReceivedData (st : er) (data : bytes) : er_result := er_loop (S (length data)) st data.

(** A history of calls; a call after an exception goes on with the state left by it. *)
Fixpoint er_run (st : er) (chunks : list bytes) : er * list bytes * list (option exn) :=
  match chunks with
  | [] => (st, [], [])
  | c :: cs =>
      let '(st1, es1, x) := er_onReceivedData st c in
      let '(st2, es2, xs) := er_run st1 cs in
      (st2, es1 ++ es2, x :: xs)
  end.
End Listener.
