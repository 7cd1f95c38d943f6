(** * Model of the URI functions of Name (python/pyndn/name.py).

    A Python str is the list of its code points. *)
From Verif Require Import Base TlvModel NameModel.
Local Open Scope res_scope.

(** ** Python str primitives *)

(** [str.isspace] on a code point (the whitespace set used by [str.strip]). *)
Definition is_space (c : Z) : bool :=
  ((9 <=? c) && (c <=? 13)) || ((28 <=? c) && (c <=? 32)) || (c =? 133) || (c =? 160) ||
  (c =? 5760) || ((8192 <=? c) && (c <=? 8202)) || (c =? 8232) || (c =? 8233) || (c =? 8239) ||
  (c =? 8287) || (c =? 12288).

Fixpoint lstrip (s : list Z) : list Z :=
  match s with c :: s' => if is_space c then lstrip s' else s | [] => [] end.
(** [s.strip()] *)
Definition strip (s : list Z) : list Z := rev (lstrip (rev (lstrip s))).

(** [s.find(c)]: [None] for -1 *)
Fixpoint find_idx (c : Z) (s : list Z) : option nat :=
  match s with
  | [] => None
  | x :: s' => if x =? c then Some 0%nat else match find_idx c s' with Some i => Some (S i) | None => None end
  end.

(** [s[:len(p)] == p] *)
Fixpoint starts_with (p s : list Z) : bool :=
  match p, s with
  | [], _ => true
  | x :: p', y :: s' => (x =? y) && starts_with p' s'
  | _ :: _, [] => false
  end.

Definition hex_digit (c : Z) : option Z :=
  if (48 <=? c) && (c <=? 57) then Some (c - 48)
  else if (65 <=? c) && (c <=? 70) then Some (c - 55)
  else if (97 <=? c) && (c <=? 102) then Some (c - 87)
  else None.

(** [int(s, 16)] for a str of exactly two characters (None: ValueError).
    Python strips whitespace and accepts a sign. *)
Definition int16_2 (a b : Z) : option Z :=
  match hex_digit a, hex_digit b with
  | Some x, Some y => Some (x * 16 + y)
  | None, Some y =>
      if is_space a || (a =? 43) then Some y
      else if a =? 45 then Some (- y) else None
  | Some x, None => if is_space b then Some x else None
  | None, None => None
  end.

(** [int(s)], base 10 (None: ValueError). ASCII digits only (simplification:
    Python also accepts other Unicode decimal digits). *)
Fixpoint int10_digits (s : list Z) (acc : Z) (afterDigit : bool) : option Z :=
  match s with
  | [] => if afterDigit then Some acc else None
  | c :: s' =>
      if (48 <=? c) && (c <=? 57) then int10_digits s' (acc * 10 + (c - 48)) true
      else if (c =? 95) && afterDigit then int10_digits s' acc false
      else None
  end.
Definition int10 (s : list Z) : option Z :=
  match strip s with
  | [] => None
  | c :: s' =>
      if c =? 43 then int10_digits s' 0 false
      else if c =? 45 then match int10_digits s' 0 false with Some v => Some (- v) | None => None end
      else int10_digits (c :: s') 0 false
  end.

(** [str(n)] for n >= 0 *)
Fixpoint dec_digits (fuel : nat) (n : Z) (acc : list Z) : list Z :=
  match fuel with
  | O => acc
  | S f => let acc' := (48 + n mod 10) :: acc in if n <? 10 then acc' else dec_digits f (n / 10) acc'
  end.
Definition str_int (n : Z) : list Z :=
  if n <? 0 then 45 :: dec_digits (S (Z.to_nat (Z.log2 (- n)))) (- n) []
  else dec_digits (S (Z.to_nat (Z.log2 n))) n [].

(** ["%02X" % b] and ["%02x" % b] for a byte *)
Definition hexU (d : Z) : Z := if d <? 10 then 48 + d else 55 + d.
Definition hexL (d : Z) : Z := if d <? 10 then 48 + d else 87 + d.
Definition hex2U (b : Z) : list Z := [hexU (b / 16); hexU (b mod 16)].
Definition hex2L (b : Z) : list Z := [hexL (b / 16); hexL (b mod 16)].

(** [bytearray.fromhex(s)]: pairs of hex digits, ASCII whitespace skipped
    between pairs; otherwise ValueError. *)
Definition is_ascii_space (c : Z) : bool := ((9 <=? c) && (c <=? 13)) || (c =? 32).
Fixpoint fromhex (s : list Z) : res bytes :=
  match s with
  | [] => Ok []
  | a :: s1 =>
      if is_ascii_space a then fromhex s1
      else match s1 with
           | b :: s2 =>
               match hex_digit a, hex_digit b with
               | Some x, Some y => rest <-- fromhex s2 ;; Ok ((x * 16 + y) :: rest)
               | _, _ => Err ValueError
               end
           | [] => Err ValueError
           end
  end.

(** ** name.py *)

(** name.py 1223-1227: characters that are not escaped *)
Definition unreserved (x : Z) : bool :=
  ((48 <=? x) && (x <=? 57)) || ((65 <=? x) && (x <=? 90)) || ((97 <=? x) && (x <=? 122)) ||
  (x =? 43) || (x =? 45) || (x =? 46) || (x =? 95).

(** name.py 1207-1211, 1171-1175: gotNonDot *)
Definition gotNonDot (v : list Z) : bool := existsb (fun x => negb (x =? 46)) v.

(** name.py 1188-1237: Name.toEscapedString (static) *)
Definition toEscapedString (value : bytes) : list Z :=
  if negb (gotNonDot value) then repeat 46 (length value + 3)
  else flat_map (fun x => if unreserved x then [x] else 37 :: hex2U x) value.

(** [buffer[0] = ord(c)]: ValueError unless the code point fits a byte *)
Definition to_byte (c : Z) : res Z := if (0 <=? c) && (c <? 256) then Ok c else Err ValueError.

(** name.py 1308-1340: Name._unescape. The index loop is structural recursion on
    the rest of the string. *)
Fixpoint unescape (s : list Z) : res bytes :=
  match s with
  | [] => Ok []
  | c :: s0 =>
      let copy := x <-- to_byte c ;; rest <-- unescape s0 ;; Ok (x :: rest) in
      if c =? 37 then
        match s0 with
        | a :: b :: s' =>
            let keep := x <-- to_byte a ;; y <-- to_byte b ;; rest <-- unescape s' ;; Ok (37 :: x :: y :: rest) in
            match int16_2 a b with
            | Some v =>
                if (0 <=? v) && (v <? 256) then rest <-- unescape s' ;; Ok (v :: rest)
                else keep  (* the assignment to buffer[0] raises ValueError, which is caught *)
            | None => keep
            end
        | _ => copy
        end
      else copy
  end.

(** name.py 1153-1186: Name.fromEscapedString (static); [None] is the null Blob *)
Definition fromEscapedString (s : list Z) : res (option bytes) :=
  value <-- unescape (strip s) ;;
  if negb (gotNonDot value) then
    if zlen value <=? 2 then Ok None else Ok (Some (skipn 3 value))
  else Ok (Some value).

(** The code points of "sha256digest=" and "params-sha256=" *)
Definition str_sha256digest : list Z := [115;104;97;50;53;54;100;105;103;101;115;116;61].
Definition str_params_sha256 : list Z := [112;97;114;97;109;115;45;115;104;97;50;53;54;61].

(** name.py 130-164: Name.Component.toEscapedString; blob.py 261-288: toHex *)
Definition c_toEscapedString (c : comp) : list Z :=
  if c_type c =? CT_IMPLICIT then str_sha256digest ++ flat_map hex2L (c_value c)
  else if c_type c =? CT_PARAMS then str_params_sha256 ++ flat_map hex2L (c_value c)
  else
    (if negb (c_type c =? CT_GENERIC)
     then str_int (if c_type c =? CT_OTHER then c_other c else c_type c) ++ [61] else []) ++
    toEscapedString (c_value c).

(** name.py 813-836: toUri *)
Definition n_toUri (n : name) (includeScheme : bool) : list Z :=
  match n with
  | [] => if includeScheme then [110;100;110;58;47] else [47]
  | _ => (if includeScheme then [110;100;110;58] else []) ++ flat_map (fun c => 47 :: c_toEscapedString c) n
  end.

(** name.py 671-689: the component type of a component of Name.set, with
    ComponentType, other type code and the index of the start of the value. *)
Definition n_setType (rest : list Z) (iEnd : nat) : res (Z * Z * nat) :=
  match find_idx 61 rest with
  | Some i =>
      if Nat.ltb i iEnd then
        match int10 (firstn i rest) with
        | None => Err ValueError
        | Some code =>
            let type := if (code =? CT_GENERIC) || (code =? CT_IMPLICIT) || (code =? CT_PARAMS)
                        then code else CT_OTHER in
            Ok (type, code, S i)
        end
      else Ok (CT_GENERIC, -1, 0%nat)
  | None => Ok (CT_GENERIC, -1, 0%nat)
  end.

(** name.py 648-701: the component loop of Name.set. [rest] is uri[iComponentStart:]. *)
Fixpoint n_setLoop (fuel : nat) (rest : list Z) (acc : name) : res name :=
  match rest with
  | [] => Ok acc
  | _ =>
    match fuel with
    | O => Err OutOfFuel
    | S fuel' =>
      let iEnd := match find_idx 47 rest with Some i => i | None => length rest end in
      co <--
        (if starts_with str_sha256digest rest then
           d <-- fromhex (strip (skipn 13 rest)) ;;
           c <-- c_fromImplicitSha256Digest d ;; Ok (Some c)
         else if starts_with str_params_sha256 rest then
           d <-- fromhex (strip (skipn 14 rest)) ;;
           c <-- c_fromParametersSha256Digest d ;; Ok (Some c)
         else
           '(type, other, iStart) <--
             n_setType rest iEnd ;;
           v <-- fromEscapedString (skipn iStart (firstn iEnd rest)) ;;
           (* The constructor runs also for a null value; its result is then ignored. *)
           c <-- c_new (match v with Some b => b | None => [] end) (Some type) (Some other) ;;
           Ok (match v with Some _ => Some c | None => None end)) ;;
      let acc := match co with Some c => acc ++ [c] | None => acc end in
      n_setLoop fuel' (skipn (S iEnd) rest) acc
    end
  end.

(** name.py 614-701: Name.set *)
Definition n_set (uri : list Z) : res name :=
  let uri := strip uri in
  match uri with
  | [] => Ok []
  | _ =>
      let uri :=
        match find_idx 58 uri with
        | Some iColon =>
            match find_idx 47 uri with
            | None => strip (skipn (S iColon) uri)
            | Some iSlash => if Nat.ltb iColon iSlash then strip (skipn (S iColon) uri) else uri
            end
        | None => uri
        end in
      match uri with
      | [] => Err IndexError      (* uri[0] *)
      | x :: rest =>
          if x =? 47 then
            if starts_with [47] rest then
              match find_idx 47 (skipn 1 rest) with
              | None => Ok []
              | Some i => let u := strip (skipn (S i) (skipn 1 rest)) in n_setLoop (length u) u []
              end
            else let u := strip rest in n_setLoop (length u) u []
          else n_setLoop (length uri) uri []
      end
  end.
