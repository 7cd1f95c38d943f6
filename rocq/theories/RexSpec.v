(** * Specification of the exponential re-expressing *)
From Verif Require Import Base NameModel WireModel MatchModel RegModel RexModel.

(** What was sent for the Interest that was expressed with the id [c], in order, with the times; and what it has come to *)
Definition sent (c : Z) (log : list (Z * Z * act)) : list (Z * interest) :=
  flat_map (fun x => match x with (t, c', AExpress i) => if c' =? c then [(t, i)] else [] | _ => [] end) log.
Definition results (c : Z) (log : list (Z * Z * act)) : list (Z * act) :=
  flat_map (fun x => match x with (_, _, AExpress _) => [] | (t, c', a) => if c' =? c then [(t, a)] else [] end) log.
(** The pending Interests of it *)
Definition waiting (c : Z) (w : world) : list interest := map p_int (filter (fun p => p_chain p =? c) (w_pend w)).
(** The same Interest but for the lifetime and the nonce *)
Definition same_query (i j : interest) : Prop :=
  i_name j = i_name i /\ i_min j = i_min i /\ i_max j = i_max i /\ i_keyLocator j = i_keyLocator i /\ i_exclude j = i_exclude i /\ i_child j = i_child i /\
  i_mustBeFresh j = i_mustBeFresh i /\ i_hint j = i_hint i /\ i_params j = i_params i /\ i_link j = i_link i /\ i_selected j = i_selected i.
(** An Interest object never has a negative lifetime *)
Definition lifetime_ok (i : interest) : Prop := match i_lifetime i with Some l => 0 <= l | None => True end.
Definition event_ok (e : event) : Prop := match e with EExpress _ i _ => lifetime_ok i | _ => True end.
(** The random bytes that the Face has drawn *)
Definition drawn (h : list event) : list bytes := flat_map (fun e => match e with ETimeout _ _ n => [n] | _ => [] end) h.

Definition pow (j : nat) : Z := 2 ^ Z.of_nat j.
Section Rex.
Variable max : Z.
(** the Interest [i] that is sent, at [t], as the number [j] after the first [i0] (sent at [t0]) *)
Definition sent_ok (h : list event) (t0 : Z) (i0 : interest) (j : nat) (t : Z) (i : interest) : Prop :=
  same_query i0 i /\
  match i_lifetime i0 with
  | None => j = O /\ i_lifetime i = None
  | Some l0 => 0 <= l0 /\ i_lifetime i = Some (l0 * pow j) /\ t0 + l0 * (pow j - 1) <= t /\ (j <> O -> l0 * pow j <= max)
  end /\
  (j <> O -> exists n, In n (drawn h) /\ i_nonce i = Some n).
(** a result that the last Interest sent can come to *)
Definition result_ok (t0 : Z) (i0 : interest) (last : interest) (t : Z) (a : act) : Prop :=
  match a with
  | AExpress _ => False
  | AData i _ => i = last
  | ATimeout i => i = last /\ match i_lifetime i0, i_lifetime i with
                              | Some l0, Some l => max < 2 * l /\ t0 + (2 * l - l0) <= t
                              | None, None => True
                              | _, _ => False
                              end
  | ARemoved => True
  end.
End Rex.
(** the first Interest is the one that the application has expressed *)
Definition started (h : list event) (t0 : Z) (i0 : interest) : Prop := exists i n, In (EExpress t0 i n) h /\ i0 = withNonce i n.
