(** * Model of sync/detail/invertible_bloom_lookup_table.py

    MurmurHash3 (the mmh3 package) is the parameter [mmh] of the seed and the bytes, and zlib is
    [compress] and [decompress]. A Python set of integers is a list without repetition. *)
From Verif Require Import Base.
Local Open Scope res_scope.
Section Iblt.
Variable mmh : Z -> bytes -> Z.
Variable compress : bytes -> bytes.
Variable decompress : bytes -> res bytes.

(** 242-251: _HashTableEntry *)
Record entry : Type := Entry { e_count : Z; e_keySum : Z; e_keyCheck : Z }.
Definition e_new : entry := Entry 0 0 0.
Definition table : Type := list entry.
(** 315-316 *)
Definition N_HASH : Z := 3.
Definition N_HASHCHECK : Z := 11.
(** 197-223 of util/common.py: murmurHash3Uint32 *)
Definition le4 (v : Z) : bytes := [Z.land v 255; Z.land (Z.shiftr v 8) 255; Z.land (Z.shiftr v 16) 255; Z.land (Z.shiftr v 24) 255].
Definition murmur (seed v : Z) : Z := mmh seed (le4 v).

(** 51-63: the constructor; int(n + n / 2) is taken as n + n // 2, the same for 0 <= n < 2^52 *)
Definition new (expectedNEntries : Z) : table :=
  let n := expectedNEntries + expectedNEntries / 2 in
  let n := if n mod N_HASH =? 0 then n else n + (N_HASH - n mod N_HASH) in
  repeat e_new (Z.to_nat n).

(** 253-263: isPure; 265-269: isEmpty *)
Definition isPure (e : entry) : bool :=
  if (e_count e =? 1) || (e_count e =? -1) then e_keyCheck e =? murmur N_HASHCHECK (e_keySum e) else false.
Definition isEmpty (e : entry) : bool := (e_count e =? 0) && (e_keySum e =? 0) && (e_keyCheck e =? 0).

(** 283-287: one entry *)
Fixpoint modify (l : table) (i : nat) (f : entry -> entry) : res table :=
  match l, i with
  | [], _ => Err IndexError
  | e :: r, O => Ok (f e :: r)
  | e :: r, S i' => r' <-- modify r i' f ;; Ok (e :: r')
  end.
Definition change (plusOrMinus key : Z) (e : entry) : entry :=
  Entry (e_count e + plusOrMinus) (Z.lxor (e_keySum e) key) (Z.lxor (e_keyCheck e) (murmur N_HASHCHECK key)).
Definition update1 (t : table) (plusOrMinus key i : Z) : res table :=
  let bucketsPerHash := zlen t / N_HASH in
  let startEntry := i * bucketsPerHash in
  let h := murmur i key in
  if bucketsPerHash =? 0 then Err ZeroDivisionError
  else modify t (Z.to_nat (startEntry + h mod bucketsPerHash)) (change plusOrMinus key).
(** 271-287: _update *)
Definition update (t : table) (plusOrMinus key : Z) : res table :=
  t <-- update1 t plusOrMinus key 0 ;;
  t <-- update1 t plusOrMinus key 1 ;;
  update1 t plusOrMinus key 2.
(** 87-101 *)
Definition insert (t : table) (key : Z) : res table := update t 1 key.
Definition erase (t : table) (key : Z) : res table := update t (-1) key.

(** set.add *)
Definition set_add (x : Z) (l : list Z) : list Z := if existsb (Z.eqb x) l then l else l ++ [x].
(** 126-134: the for loop over the entries, which changes the table it goes over *)
Record peel : Type := Peel { p_table : table; p_pos : list Z; p_neg : list Z; p_erased : Z }.
Fixpoint pass (js : list nat) (p : peel) : res peel :=
  match js with
  | [] => Ok p
  | j :: r =>
      match nth_error (p_table p) j with
      | None => Err IndexError
      | Some e =>
          if isPure e then
            let pos := if e_count e =? 1 then set_add (e_keySum e) (p_pos p) else p_pos p in
            let neg := if e_count e =? 1 then p_neg p else set_add (e_keySum e) (p_neg p) in
            t <-- update (p_table p) (- e_count e) (e_keySum e) ;;
            pass r (Peel t pos neg (p_erased p + 1))
          else pass r p
      end
  end.
(** 124-137: the while loop; [fuel] bounds the number of rounds *)
Fixpoint rounds (fuel : nat) (t : table) (pos neg : list Z) : res peel :=
  match fuel with
  | O => Err OutOfFuel
  | S fuel' =>
      p <-- pass (seq 0 (length t)) (Peel t pos neg 0) ;;
      if 0 <? p_erased p then rounds fuel' (p_table p) (p_pos p) (p_neg p) else Ok p
  end.
(** 103-145: listEntries: the result and the two sets *)
Definition listEntries (fuel : nat) (t : table) : res (bool * list Z * list Z) :=
  p <-- rounds fuel t [] [] ;;
  Ok (forallb isEmpty (p_table p), p_pos p, p_neg p).

(** 147-166: difference *)
Definition e_diff (a b : entry) : entry :=
  Entry (e_count a - e_count b) (Z.lxor (e_keySum a) (e_keySum b)) (Z.lxor (e_keyCheck a) (e_keyCheck b)).
Fixpoint map2 {A B C} (f : A -> B -> C) (a : list A) (b : list B) : list C :=
  match a, b with x :: a', y :: b' => f x y :: map2 f a' b' | _, _ => [] end.
Definition difference (a b : table) : res table :=
  if negb (zlen a =? zlen b) then Err RuntimeError else Ok (map2 e_diff a b).
(** 216-234: equals *)
Definition e_equals (a b : entry) : bool :=
  negb (negb (e_count a =? e_count b) || negb (e_keySum a =? e_keySum b) || negb (e_keyCheck a =? e_keyCheck b)).
Definition equals (a b : table) : bool :=
  if negb (zlen a =? zlen b) then false else forallb (fun x => e_equals (fst x) (snd x)) (combine a b).

(** 168-214: encode *)
Definition e_bytes (e : entry) : bytes := le4 (e_count e) ++ le4 (e_keySum e) ++ le4 (e_keyCheck e).
Definition encode (t : table) : bytes := compress (flat_map e_bytes t).
(** 289-313: _decode *)
Fixpoint values (b : bytes) : list Z :=
  match b with
  | b0 :: b1 :: b2 :: b3 :: r => Z.shiftl b3 24 + Z.shiftl b2 16 + Z.shiftl b1 8 + b0 :: values r
  | _ => []
  end.
Definition decode (encoding : bytes) : res (list Z) := b <-- decompress encoding ;; Ok (values b).
(** 80-85: the loop *)
Fixpoint fill (t : table) (vs : list Z) : table :=
  match t, vs with
  | e :: r, c :: k :: h :: vs' => (if negb (c =? 0) then Entry c k h else e) :: fill r vs'
  | _, _ => t
  end.
(** 65-85: initialize *)
Definition initialize (t : table) (encoding : bytes) : res table :=
  vs <-- decode encoding ;;
  if negb (3 * zlen t =? zlen vs) then Err RuntimeError else Ok (fill t vs).

(** A history of calls of _update: (1, key) for insert, (-1, key) for erase. *)
Fixpoint run (t : table) (ops : list (Z * Z)) : res table :=
  match ops with [] => Ok t | (s, k) :: r => t <-- update t s k ;; run t r end.
End Iblt.
