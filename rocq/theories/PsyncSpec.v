(** * Specification of C36 *)
From Verif Require Import Base TlvSpec NameModel NameSpec IbltModel IbltSpec PsyncModel.

(** The name of a sequence number of a prefix. *)
Definition entry (p : name) (q : Z) : name := p ++ [c_generic (nonneg q)].

(** The names and the sequence numbers that a group uses: proper names, numbers that fit in eight bytes,
    and no two entries with the same 32-bit hash. *)
Record group (mmh : Z -> bytes -> Z) (P : name -> Prop) (M : Z) : Prop := Group {
  g_valid : forall p, P p -> Forall c_valid p;
  g_bound : 0 <= M < 2 ^ 64;
  g_hash : forall p q p' q', P p -> P p' -> 0 < q <= M -> 0 < q' <= M -> hash mmh (entry p q) = hash mmh (entry p' q') -> entry p q = entry p' q' }.

(** What is asked of the calls and of the received sync data; nothing of the received interests. *)
Definition wf (P : name -> Prop) (M : Z) (s : state) (e : event) : Prop :=
  match e with
  | EAdd p | ERemove p => P p
  | EPublish p q => P p /\ q <= M /\ (q < 0 -> getSequenceNo s p < M)
  | EData _ content => exists l, content = map (fun x => entry (fst x) (snd x)) l /\ NoDup (map fst l) /\ Forall (fun x => P (fst x) /\ 0 < snd x <= M) l
  | EInterest _ _ _ | ETimer | EExpire _ _ => True
  | EName _ | EUnname _ => False
  end.

Section S.
Variables (mmh : Z -> bytes -> Z) (compress : bytes -> bytes) (decompress : bytes -> res bytes) (fuel : nat) (n : Z) (syncPrefix : name).
(** The states of FullPSync2017WithUsers. *)
Inductive reach (P : name -> Prop) (M : Z) : state -> Prop :=
| R_start : reach P M (start compress n syncPrefix)
| R_step s e : reach P M s -> wf P M s e -> reach P M (step mmh compress decompress fuel n syncPrefix true s e).

(** The table has exactly the latest non-zero sequence number of each prefix, once. *)
Definition in_step (P : name -> Prop) (M : Z) (s : state) : Prop :=
  exists l : list (name * Z), NoDup l /\ (forall p q, In (p, q) l <-> P p /\ getSequenceNo s p = q /\ 0 < q) /\
    IbltModel.run mmh (new n) (inserts (map (fun x => hash mmh (entry (fst x) (snd x))) l)) = Ok (s_iblt s).
End S.

(** For FullPSync2017 by itself: the set of names. *)
Fixpoint names_after (es : list event) (n : name) (before : Prop) : Prop :=
  match es with
  | [] => before
  | EName m :: r => names_after r n (before \/ m = n)
  | EUnname m :: r => names_after r n (before /\ m <> n)
  | EData _ c :: r => names_after r n (before \/ In n c)
  | _ :: r => names_after r n before
  end.
Definition plain (U : name -> Prop) (e : event) : Prop :=
  match e with
  | EName n | EUnname n => U n
  | EData _ c => Forall U c
  | EInterest _ _ _ | ETimer | EExpire _ _ => True
  | _ => False
  end.

(** The hashes of the entries that one node has and another lacks. *)
Definition missing (mmh : Z -> bytes -> Z) (P : name -> Prop) (a b : state) (hs : list Z) : Prop :=
  NoDup hs /\ forall h, In h hs <-> exists p, P p /\ 0 < getSequenceNo a p /\ getSequenceNo b p <> getSequenceNo a p /\ h = hash mmh (entry p (getSequenceNo a p)).
