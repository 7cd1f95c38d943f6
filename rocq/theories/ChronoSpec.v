(** * Specification of ChronoSync2013 *)
From Verif Require Import Base BlobModel DigestModel DigestSpec ChronoModel.

(** A producer's state (prefix, session, sequence number) that a message claims: the UPDATE states of
    the message, in order. *)
Definition triple (x : sstate) : str * Z * Z := (ss_name x, ss_session x, ss_seq x).
Definition claims (l : content) : list (str * Z * Z) := map triple (filter (fun x => ss_type x =? 0) l).
(** The highest sequence number claimed for a producer, -1 if there is none. *)
Definition prod_dec (a b : str * Z) : {a = b} + {a <> b}.
Proof. decide equality; [apply Z.eq_dec|apply list_eq_dec, Z.eq_dec]. Defined.
Fixpoint top (us : list (str * Z * Z)) (p : str) (s : Z) : Z :=
  match us with
  | [] => -1
  | u :: r => if prod_dec (fst u) (p, s) then Z.max (snd u) (top r p s) else top r p s
  end.
(** What ParseFromString can give: names are Unicode text, numbers are uint64. *)
Definition state_ok (x : sstate) : Prop := encodable (ss_name x) /\ 0 <= ss_seq x < 2 ^ 64 /\ 0 <= ss_session x < 2 ^ 64.
Definition input_ok (i : input) : Prop := match i_event i with EData _ _ (Some c) => Forall state_ok c | _ => True end.
(** The states claimed by the Data that was received *)
Definition heard_in (i : input) : list (str * Z * Z) := match i_event i with EData _ _ (Some c) => claims c | _ => [] end.
Definition heard (l : list input) : list (str * Z * Z) := flat_map heard_in l.
(** The application does not call shutdown, neither directly nor in a callback. *)
Definition keeps_on (i : input) : Prop := i_event i <> EShutdown /\ Forall (fun cs => ~ In CShutdown cs) (i_calls i).
Definition running (l : list input) : Prop := Forall keeps_on l.

(** No two sets of states, with numbers up to those that the object [c] knows of, have the same root
    digest. *)
Definition below (c : chrono) (u : str * Z * Z) : Prop := encodable (fst (fst u)) /\ 0 <= snd u <= getProducerSequenceNo c (fst (fst u)) (snd (fst u)).
Definition collision_free (sha : bytes -> bytes) (c : chrono) : Prop :=
  forall us us', Forall (below c) us -> Forall (below c) us' -> t_root (run sha us) = t_root (run sha us') -> run sha us = run sha us'.

(** SHA-256 gives bytes, more than one. *)
Definition hash_fn (sha : bytes -> bytes) : Prop := sha_fn sha /\ forall b, 1 < zlen (sha b).

(** ** Interests *)
(** The Interests that are neither answered nor timed out *)
Definition expressed (a : act) : list (list str * kind) := match a with Express n k => [(n, k)] | _ => [] end.
Definition kind_dec (a b : kind) : {a = b} + {a <> b}.
Proof. decide equality. Defined.
Definition int_dec (a b : list str * kind) : {a = b} + {a <> b}.
Proof. decide equality; [apply kind_dec|apply list_eq_dec, list_eq_dec, Z.eq_dec]. Defined.
Fixpoint without (x : list str * kind) (l : list (list str * kind)) : list (list str * kind) :=
  match l with [] => [] | y :: r => if int_dec x y then r else y :: without x r end.
(** The Interest whose callback is called *)
Definition resolved (e : event) : option (list str * kind) := match e with EData n k _ | ETimeout n k => Some (n, k) | _ => None end.
Section Node.
Variable sha : bytes -> bytes.
Variable me : str.
Variable session : Z.
Inductive outstanding : list input -> list (list str * kind) -> Prop :=
| Out_start : outstanding [] [([s00], Initial)]
| Out_step l o i : outstanding l o ->
    match resolved (i_event i) with Some x => In x o | None => True end ->
    outstanding (l ++ [i]) (match resolved (i_event i) with Some x => without x o | None => o end ++ flat_map expressed (c_outs (fst (step sha me session (after sha me session l) i)))).
(** Neither a callback of the Face nor publishNextSequenceNo raised an exception. *)
Definition raises (c : chrono) (i : input) : Prop := snd (step sha me session c i) <> Ok tt.
Definition undisturbed (l : list input) : Prop := forall l1 i l2, l = l1 ++ i :: l2 ->
  match i_event i with EPublish _ | EData _ _ _ | ETimeout _ _ => ~ raises (after sha me session l1) i | _ => True end.
End Node.

(** ** Replies *)
(** The messages logged after the root digest was [d] *)
Fixpoint logged_after (g : list (str * content)) (d : str) : list content :=
  match g with [] => [] | e :: r => if list_eq_dec Z.eq_dec (fst e) d then map snd r else logged_after r d end.
(** No two sessions of a prefix, and the numbers do not go back. *)
Definition tidy (us : list (str * Z * Z)) : Prop := forall a b c p s q s' q', us = a ++ (p, s, q) :: b ++ (p, s', q') :: c -> s = s' /\ q <= q'.
(** An Interest, Data for an Interest, without calls of the application in a callback and with the
    signing all right *)
Definition interest (n : list str) : input := Input (EInterest n) [] [].
Definition data_for (n : list str) (l : content) : input := Input (EData n Sync (Some l)) [] [].

(** ** A group *)
(** The messages that a node sends *)
Definition sent (a : act) : list content := match a with Put _ c _ | Add _ c => [c] | _ => [] end.
(** A group of nodes, each with a data prefix and session; a history of the group, with the node at
    which each event happens *)
Section Group.
Variable sha : bytes -> bytes.
Variable nodes : list (str * Z).
Definition local (n : nat) (h : list (nat * input)) : list input := map snd (filter (fun e => Nat.eqb (fst e) n) h).
Definition at_node (n : nat) (h : list (nat * input)) : chrono := match nth_error nodes n with Some (p, s) => after sha p s (local n h) | None => start end.
(** Every Data that is received holds a message that some node has sent before, in whatever order, as
    often as one likes, or cannot be decoded. [m] is all that was sent. *)
Inductive group : list (nat * input) -> list content -> Prop :=
| Group_start : group [] []
| Group_step h m n p s i : group h m -> nth_error nodes n = Some (p, s) ->
    match i_event i with EData _ _ (Some c) => In c m | _ => True end ->
    group (h ++ [(n, i)]) (m ++ flat_map sent (c_outs (fst (step sha p s (at_node n h) i)))).
(** The prefixes differ and are Unicode text. *)
Definition distinct : Prop := NoDup (map fst nodes) /\ Forall (fun x => encodable (fst x)) nodes.
(** No node reaches the last uint64. *)
Definition not_full (h : list (nat * input)) : Prop := forall h1 h2 n, h = h1 ++ h2 -> getSequenceNo (at_node n h1) < 2 ^ 64 - 1.
End Group.
