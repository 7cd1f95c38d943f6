(** * Specification of C31, in terms of the calls made so far and their times. *)
From Verif Require Import Base NameModel NameSpec UriModel WireModel MatchModel MccModel.

(** The clock does not go back; the time of the last call that reads it. *)
Definition op_time (o : op) : option Z := match o with MAdd _ t _ | MInterest _ _ _ t _ | MStore _ _ t => Some t | _ => None end.
Fixpoint timed (t : Z) (os : list op) : Prop :=
  match os with
  | [] => True
  | o :: r => match op_time o with Some t' => t <= t' /\ timed t' r | None => timed t r end
  end.
Definition clock (t0 : Z) (os : list op) : Z := fold_left (fun t o => match op_time o with Some t' => t' | None => t end) os t0.

(** The minimum cache lifetime in force after the calls. *)
Definition min_life (os : list op) : Z := fold_left (fun m o => match o with MSetMin m' => m' | _ => m end) os 0.
(** [d] was added at time [t] under the minimum lifetime [m]. *)
Definition added (os : list op) (d : data) (t m : Z) : Prop := exists os1 fails os2, os = os1 ++ MAdd d t fails :: os2 /\ m = min_life os1.

(** The freshness period, when there is one. *)
Definition period (d : data) : option Z := match mi_freshness (d_meta d) with Some f => if 0 <=? f then Some f else None | None => None end.
Definition fresh (d : data) (t now : Z) : Prop := forall f, period d = Some f -> now < t + f.
(** The time is before the one when the content may be dropped. *)
Definition live (d : data) (t m now : Z) : Prop := forall f, period d = Some f -> now < t + Z.max f m.
(** The packet may be the answer for the interest. *)
Definition eligible (i : interest) (d : data) (t now : Z) : Prop :=
  i_matchesName i (d_name d) = Ok true /\ (i_mustBeFresh i = true -> fresh d t now).
(** The child component: the one that follows the interest name, or the empty one. *)
Definition child (i : interest) (d : data) : key := nth (length (i_name i)) (n_key (d_name d)) (8, []).

(** The callback registered for a prefix. *)
Definition handler (os : list op) (uri : list Z) : option Z :=
  fold_left (fun h o => match o with
                        | MFilter p (Some h') => if zlist_eqb (n_toUri p false) uri then Some h' else h
                        | MUnregisterAll => None
                        | _ => h
                        end) os None.

(** The interest of the [n]-th storePendingInterest (from 0), with its face and the end of its lifetime. *)
Fixpoint nth_store (n : nat) (os : list op) : option (interest * Z * Z) :=
  match os with
  | [] => None
  | MStore i f t :: r => match n with O => Some (i, f, t + match i_lifetime i with Some l => if l <? 0 then 4000 else l | None => 4000 end) | S n' => nth_store n' r end
  | _ :: r => nth_store n r
  end.
Definition sent_to (n : nat) (e : event) : bool := match e with LPend q _ _ => Nat.eqb (q_ser q) n | _ => false end.
