(** * Specification of C35 *)
From Verif Require Import Base IbltModel.
Section Spec.
Variable mmh : Z -> bytes -> Z.

(** A table with [b] entries for each of the three hash functions. *)
Definition sized (b : Z) (t : table) : Prop := 0 < b /\ zlen t = 3 * b.
(** The entries that a key falls in. *)
Definition falls_in (b k j : Z) : Prop := exists i, 0 <= i < 3 /\ j = i * b + murmur mmh i k mod b.
Definition falls_inb (b k j : Z) : bool := existsb (fun i => j =? i * b + murmur mmh i k mod b) [0; 1; 2].
(** The check of a key. *)
Definition check (k : Z) : Z := murmur mmh 11 k.

(** Signed keys: (1, k) is a key to have, (-1, k) a key to lack. *)
Definition signs (l : list (Z * Z)) : Z := fold_right Z.add 0 (map fst l).
Definition xors (l : list Z) : Z := fold_right Z.lxor 0 l.
(** The table holds the signed keys: each entry has the sum of the signs, of the keys and of the
    checks (the last two by xor) of the keys that fall in it. *)
Definition holds (b : Z) (t : table) (l : list (Z * Z)) : Prop :=
  sized b t /\ forall j e, nth_error t j = Some e ->
    let here := filter (fun x => falls_inb b (snd x) (Z.of_nat j)) l in
    e_count e = signs here /\ e_keySum e = xors (map snd here) /\ e_keyCheck e = xors (map (fun x => check (snd x)) here).
Definition inserts (ks : list Z) : list (Z * Z) := map (fun k => (1, k)) ks.
Definition erases (ks : list Z) : list (Z * Z) := map (fun k => (-1, k)) ks.

(** No part of the keys looks like a single key, or like none, by coincidence. *)
Definition no_collision (l : list (Z * Z)) : Prop := forall f : Z * Z -> bool,
  let part := filter f l in
  (signs part = 1 \/ signs part = -1 -> xors (map (fun x => check (snd x)) part) = check (xors (map snd part)) -> exists x, part = [x]) /\
  (signs part = 0 -> xors (map snd part) = 0 -> xors (map (fun x => check (snd x)) part) = 0 -> part = []).
Definition u32 (v : Z) : Prop := 0 <= v < 2 ^ 32.
Definition hash32 : Prop := forall s b, u32 (mmh s b).
End Spec.

(** The keys can be taken out one after the other, each time one that is alone in an entry. *)
Inductive peelable (mmh : Z -> bytes -> Z) (b : Z) : list (Z * Z) -> Prop :=
| Peel_nil : peelable mmh b []
| Peel_step l1 x l2 j : falls_in mmh b (snd x) j -> (forall y, In y (l1 ++ l2) -> ~ falls_in mmh b (snd y) j) ->
    peelable mmh b (l1 ++ l2) -> peelable mmh b (l1 ++ x :: l2).
