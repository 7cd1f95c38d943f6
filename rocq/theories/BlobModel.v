(** * Model of Blob: python/pyndn/util/blob.py, and of the UTF-8 codec Python uses.

    A Blob is [option bytes]: [None] is the null Blob. The distinction between copied
    and shared arrays, Python 2, and memoryview wrappers are not modelled. *)
From Verif Require Import Base.
Local Open Scope res_scope.

(** A Python str: its code points. *)
Definition str : Type := list Z.

(** str.encode('utf-8') (util/common.py 139-141, Common.stringToUtf8Array): a surrogate
    raises UnicodeEncodeError, a ValueError. *)
Fixpoint utf8_encode (s : str) : res bytes :=
  match s with
  | [] => Ok []
  | c :: s' =>
      r <-- utf8_encode s' ;;
      if c <? 128 then Ok (c :: r)
      else if c <? 2048 then Ok (192 + c / 64 :: 128 + c mod 64 :: r)
      else if (55296 <=? c) && (c <=? 57343) then Err ValueError
      else if c <? 65536 then Ok (224 + c / 4096 :: 128 + c / 64 mod 64 :: 128 + c mod 64 :: r)
      else Ok (240 + c / 262144 :: 128 + c / 4096 mod 64 :: 128 + c / 64 mod 64 :: 128 + c mod 64 :: r)
  end.

(** A continuation byte within [lo, hi]. *)
Definition cont (lo hi b : Z) : bool := (lo <=? b) && (b <=? hi).
(** str(buffer, 'utf8') (blob.py 311-313), CPython's strict decoder: overlong forms,
    surrogates and code points above 0x10ffff raise UnicodeDecodeError, a ValueError. *)
Fixpoint utf8_decode (b : bytes) : res str :=
  match b with
  | [] => Ok []
  | b0 :: l0 =>
      if b0 <? 128 then r <-- utf8_decode l0 ;; Ok (b0 :: r)
      else match l0 with
      | [] => Err ValueError
      | b1 :: l1 =>
          if b0 <? 194 then Err ValueError
          else if b0 <? 224 then
            if cont 128 191 b1 then r <-- utf8_decode l1 ;; Ok ((b0 - 192) * 64 + (b1 - 128) :: r) else Err ValueError
          else match l1 with
          | [] => Err ValueError
          | b2 :: l2 =>
              if b0 <? 240 then
                if cont (if b0 =? 224 then 160 else 128) (if b0 =? 237 then 159 else 191) b1 && cont 128 191 b2
                then r <-- utf8_decode l2 ;; Ok ((b0 - 224) * 4096 + (b1 - 128) * 64 + (b2 - 128) :: r) else Err ValueError
              else match l2 with
              | [] => Err ValueError
              | b3 :: l3 =>
                  if b0 <? 245 then
                    if cont (if b0 =? 240 then 144 else 128) (if b0 =? 244 then 143 else 191) b1 && cont 128 191 b2 && cont 128 191 b3
                    then r <-- utf8_decode l3 ;; Ok ((b0 - 240) * 262144 + (b1 - 128) * 4096 + (b2 - 128) * 64 + (b3 - 128) :: r)
                    else Err ValueError
                  else Err ValueError
              end
          end
      end
  end.

(** blob.py 46-82: Blob(str) *)
Definition blob_of_str (s : str) : res (option bytes) := b <-- utf8_encode s ;; Ok (Some b).
(** blob.py 298-316: str(blob) *)
Definition blob_to_str (b : option bytes) : res str := match b with None => Ok [] | Some v => utf8_decode v end.

(** blob.py 217-224: elementwise comparison after the length test *)
Fixpoint arr_equals (a b : bytes) : bool :=
  match a, b with [], [] => true | x :: a', y :: b' => (x =? y) && arr_equals a' b' | _, _ => false end.
(** blob.py 197-224: Blob.equals *)
Definition blob_equals (a b : option bytes) : bool :=
  match a, b with
  | None, None => true
  | Some x, Some y => if zlen x =? zlen y then arr_equals x y else false
  | _, _ => false
  end.
(** blob.py 249-253: the loop over the common length; 254-259: then the lengths *)
Fixpoint arr_compare (a b : bytes) : Z :=
  match a, b with
  | x :: a', y :: b' => if x <? y then -1 else if y <? x then 1 else arr_compare a' b'
  | [], _ :: _ => -1
  | _ :: _, [] => 1
  | [], [] => 0
  end.
(** blob.py 226-259: Blob.compare *)
Definition blob_compare (a b : option bytes) : Z :=
  match a, b with
  | None, None => 0
  | None, Some _ => -1
  | Some _, None => 1
  | Some x, Some y => arr_compare x y
  end.
(** blob.py 282-288: "%02x" of each byte *)
Definition hexdigit (d : Z) : Z := if d <? 10 then 48 + d else 87 + d.
(** blob.py 261-288: toHex *)
Definition blob_toHex (b : option bytes) : str :=
  match b with None => [] | Some v => flat_map (fun x => [hexdigit (x / 16); hexdigit (x mod 16)]) v end.
(** blob.py 318-332: __hash__; [h] is Python's hash of a bytes object *)
Definition blob_hash (h : bytes -> Z) (b : option bytes) : Z := match b with None => 0 | Some v => h v end.
(** blob.py 142-153 and 175-186: toRawStr, fromRawStr (bytearray rejects values outside a byte) *)
Definition blob_toRawStr (b : option bytes) : str := match b with None => [] | Some v => v end.
Definition blob_fromRawStr (s : str) : res (option bytes) := if bytes_okb s then Ok (Some s) else Err ValueError.
