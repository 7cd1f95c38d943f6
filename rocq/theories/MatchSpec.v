(** * Specification of C14 and C15. *)
From Verif Require Import Base NameModel NameSpec WireModel.

(** [c] is excluded by the filter: it is one of the listed components, or it lies in the
    open interval around a run of ANY entries. A missing bound is no restriction. *)
Definition above (pre : list exentry) (c : comp) : Prop :=
  pre = [] \/ exists p l, pre = p ++ [ExComp l] /\ key_lt (c_key l) (c_key c).
Definition below (post : list exentry) (c : comp) : Prop :=
  post = [] \/ exists u q, post = ExComp u :: q /\ key_lt (c_key c) (c_key u).
Definition excluded (es : list exentry) (c : comp) : Prop :=
  (exists e, In (ExComp e) es /\ c_key e = c_key c) \/
  (exists pre k post, es = pre ++ repeat ExAny (S k) ++ post /\ above pre c /\ below post c).

(** Well-formed filter: no two adjacent ANY. *)
Definition ex_wf (es : list exentry) : Prop := forall p q, es <> p ++ ExAny :: ExAny :: q.
Definition ex_valid (es : list exentry) : Prop := forall c, In (ExComp c) es -> c_valid c.

(** Selectors of an Interest against a name with [len] components, digest included. *)
Definition suffix_ok (i : interest) (len : Z) : Prop :=
  (forall m, i_min i = Some m -> m <= len - zlen (i_name i)) /\
  (forall m, i_max i = Some m -> len - zlen (i_name i) <= m).
(** The component of [n] that follows the Interest name, if there is one, is not excluded. *)
Definition next_ok (i : interest) (n : name) : Prop :=
  forall p c q, n = p ++ c :: q -> length p = length (i_name i) -> ~ excluded (i_exclude i) c.
(** The names agree component by component on the values of the Interest name. *)
Definition value_prefix (a b : name) : Prop := prefix (map c_value a) (map c_value b).
(** The requested publisher. *)
Definition sig_locator (s : signature) : option keyLocator :=
  match s with SigRsa kl _ _ => Some kl | SigEcdsa kl _ _ => Some kl | SigHmac kl _ => Some kl | _ => None end.
Definition same_locator (a b : keyLocator) : Prop :=
  kl_type a = kl_type b /\ (kl_type a = Some 1 -> n_key (kl_name a) = n_key (kl_name b)) /\ (kl_type a = Some 2 -> kl_data a = kl_data b).
Definition publisher_ok (i : interest) (d : data) : Prop :=
  kl_type (i_keyLocator i) = None \/ exists kl, sig_locator (d_sig d) = Some kl /\ same_locator (i_keyLocator i) kl.
