(** * Specification vocabulary for the ranges of an Exclude filter (excluded is in MatchSpec) *)
From Verif Require Import Base NameModel NameSpec WireModel MatchSpec ExclModel.
From Coq Require Import Sorted.

Definition lt_k (a b : comp) : Prop := key_lt (c_key a) (c_key b).
Definition le_k (a b : comp) : Prop := lt_k a b \/ c_key a = c_key b.
(** Not a digest component (these come before the empty component), and not an empty component
    of another type *)
Definition regular (c : comp) : Prop := c_valid c /\ le_k c_empty c /\ (c_value c = [] -> c = c_empty).
(** The listed components *)
Definition listed (es : list exentry) : list comp := flat_map (fun e => match e with ExComp c => [c] | ExAny => [] end) es.
(** A filter in the order that the protocol asks for *)
Definition ordered (es : list exentry) : Prop :=
  Forall regular (listed es) /\ StronglySorted lt_k (listed es) /\
  match es with ExAny :: _ => ~ In c_empty (listed es) | _ => True end.
(** The filter already excludes everything from [a] through a component after [b]. *)
Definition already (es : list exentry) (a b : comp) : Prop :=
  exists d, regular d /\ lt_k b d /\ forall c, regular c -> le_k a c -> le_k c d -> excluded es c.
