(** * Model of sync/digest_tree.py

    SHA-256 is the parameter [sha]. Logging is left out. *)
From Verif Require Import Base BlobModel.
Local Open Scope res_scope.
Section Digest.
Variable sha : bytes -> bytes.

(** 36-52: DigestTree.Node *)
Record node : Type := Node { n_prefix : str; n_session : Z; n_seq : Z; n_digest : str }.
(** 32-34 *)
Record tree : Type := Tree { t_nodes : list node; t_root : str }.
Definition new : tree := Tree [] [48; 48].

(** 141-145: _int32ToLittleEndian *)
Definition le32 (v : Z) : bytes := [Z.land v 255; Z.land (Z.shiftr v 8) 255; Z.land (Z.shiftr (Z.shiftr v 8) 8) 255; Z.land (Z.shiftr (Z.shiftr (Z.shiftr v 8) 8) 8) 255].
(** 115-139: _recomputeDigest *)
Definition node_digest (prefix : str) (session seq : Z) : res str :=
  let sequenceDigest := sha (le32 session ++ le32 seq) in
  p <-- utf8_encode prefix ;;
  let nameDigest := sha p in
  Ok (blob_toHex (Some (sha (nameDigest ++ sequenceDigest)))).

(** str.__lt__: by code points *)
Fixpoint str_lt (a b : str) : bool :=
  match a, b with
  | [], [] => false
  | [], _ :: _ => true
  | _ :: _, [] => false
  | x :: a', y :: b' => if x =? y then str_lt a' b' else x <? y
  end.
(** 99-113: lessThan *)
Definition lessThan (a b : node) : bool :=
  if str_lt (n_prefix a) (n_prefix b) then true
  else if str_lt (n_prefix b) (n_prefix a) then false
  else n_session a <? n_session b.

(** bytearray.fromhex of a digest (223), which never holds spaces *)
Definition unhexdigit (c : Z) : res Z :=
  if (48 <=? c) && (c <=? 57) then Ok (c - 48)
  else if (97 <=? c) && (c <=? 102) then Ok (c - 87)
  else if (65 <=? c) && (c <=? 70) then Ok (c - 55)
  else Err ValueError.
Fixpoint fromhex (s : str) : res bytes :=
  match s with
  | [] => Ok []
  | [_] => Err ValueError
  | a :: b :: r => x <-- unhexdigit a ;; y <-- unhexdigit b ;; l <-- fromhex r ;; Ok (16 * x + y :: l)
  end.
(** 225-236: _recomputeRoot *)
Fixpoint digests (l : list node) : res bytes :=
  match l with [] => Ok [] | n :: r => b <-- fromhex (n_digest n) ;; t <-- digests r ;; Ok (b ++ t) end.
Definition recomputeRoot (l : list node) : res str := b <-- digests l ;; Ok (blob_toHex (Some (sha b))).

(** 190-196: find *)
Fixpoint find_from (i : Z) (l : list node) (prefix : str) (session : Z) : Z :=
  match l with
  | [] => -1
  | n :: r => if zlist_eqb (n_prefix n) prefix && (n_session n =? session) then i else find_from (i + 1) r prefix session
  end.
Definition find (t : tree) (prefix : str) (session : Z) : Z := find_from 0 (t_nodes t) prefix session.
(** 180-185: the first node which is not less *)
Fixpoint insert_sorted (l : list node) (x : node) : list node :=
  match l with
  | [] => [x]
  | n :: r => if negb (lessThan n x) then x :: l else n :: insert_sorted r x
  end.
Fixpoint set_at (l : list node) (i : nat) (x : node) : list node :=
  match l, i with
  | [], _ => []
  | _ :: r, O => x :: r
  | n :: r, S i' => n :: set_at r i' x
  end.
(** 147-188: update. The tree after the call and the result or the exception. *)
Definition update (t : tree) (prefix : str) (session seq : Z) : tree * res bool :=
  let i := find t prefix session in
  let finish (l : list node) : tree * res bool :=
    match recomputeRoot l with Ok r => (Tree l r, Ok true) | Err x => (Tree l (t_root t), Err x) end in
  if 0 <=? i then
    match nth_error (t_nodes t) (Z.to_nat i) with
    | None => (t, Err IndexError)
    | Some n =>
        if n_seq n <? seq then
          match node_digest (n_prefix n) (n_session n) seq with
          | Ok d => finish (set_at (t_nodes t) (Z.to_nat i) (Node (n_prefix n) (n_session n) seq d))
          | Err x => (Tree (set_at (t_nodes t) (Z.to_nat i) (Node (n_prefix n) (n_session n) seq (n_digest n))) (t_root t), Err x)
          end
        else (t, Ok false)
    end
  else
    match node_digest prefix session seq with
    | Ok d => finish (insert_sorted (t_nodes t) (Node prefix session seq d))
    | Err x => (t, Err x)
    end.
(** A history of calls of update *)
Definition run (us : list (str * Z * Z)) : tree := fold_left (fun t u => fst (update t (fst (fst u)) (snd (fst u)) (snd u))) us new.
End Digest.
