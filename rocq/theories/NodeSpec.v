(** * Specification of the client node, in terms of calls, received packets and callbacks. *)
From Verif Require Import Base NodeModel.

Section Node.
Context {I D F : Type}.
Variable matches : I -> D -> res bool.
Variable wire : I -> res bytes.
Variable lifetime : I -> option Z.
Variable isLocalTimeout : I -> bool.
Variable fmatch : F -> I -> res bool.
Variable status : D -> res Z.
Notation entry := (entry I F). Notation state := (state I D F). Notation event := (event I D F). Notation op := (op I D F).
Notation run := (run I D F matches wire lifetime isLocalTimeout fmatch status).
Notation step := (step I D F matches wire lifetime isLocalTimeout fmatch status).

(** The pending interest that a terminal callback (onData, onNetworkNack, onTimeout) is for. *)
Definition terminal (l : event) : option entry :=
  match l with LData _ _ _ e _ | LNack _ _ _ e | LTimeout _ _ _ e _ => Some e | _ => None end.
Definition is_terminal_of (e : entry) (l : event) : bool := match terminal l with Some e' => Nat.eqb (e_ser _ _ e') (e_ser _ _ e) | None => false end.
(** How many terminal callbacks an expressed interest got. *)
Definition terminals (e : entry) (l : list event) : nat := length (filter (is_terminal_of e) l).
(** The log has a terminal callback for an interest expressed with this id. *)
Definition calls_id (id : Z) (l : list event) : Prop := exists ev e, In ev l /\ terminal ev = Some e /\ e_id _ _ e = id.

(** The entries whose callback an unfinished loop of the node is still going to call. *)
Definition fr_entries (f : frame I D F) : list entry := match f with FrData _ _ _ es _ | FrNack _ _ _ es => es | _ => [] end.
Definition in_dispatch (s : state) : list entry := flat_map fr_entries (s_frames _ _ _ s).
Definition fr_filters (f : frame I D F) : list (fentry F) := match f with FrInterest _ _ _ fs _ => fs | _ => [] end.
Definition filters_in_dispatch (s : state) : list (fentry F) := flat_map fr_filters (s_frames _ _ _ s).

(** Whether a timeout is set up, and after which time: the interest lifetime, or 4 seconds. *)
Definition has_timer (e : entry) : bool := e_timeout _ _ e || match lifetime (e_int _ _ e) with Some l => 0 <=? l | None => false end.
Definition timer (e : entry) : Z := match lifetime (e_int _ _ e) with Some l => if l <? 0 then 4000 else l | None => 4000 end.

(** How many times a run of calls expresses an interest with this id (a registration does so
    with the next id), and how many times it registers with this registration id. *)
Definition uses_id (id : Z) (s : state) (o : op) : nat :=
  match o with
  | OExpress _ _ _ id' _ _ _ _ => if id' =? id then 1 else 0
  | ORegister _ _ _ _ _ _ _ _ => if s_lastId _ _ _ s + 1 =? id then 1 else 0
  | _ => 0
  end.
Fixpoint uses (id : Z) (s : state) (os : list op) : nat :=
  match os with [] => 0 | o :: r => uses_id id s o + uses id (step s o) r end.
Definition registers (rid : Z) (o : op) : bool := match o with ORegister _ _ _ r _ _ _ _ => r =? rid | _ => false end.

(** No loop is running and every delayed call due at [now] was made. *)
Definition settled (s : state) (now : Z) : Prop :=
  s_frames _ _ _ s = [] /\ forall c, In c (s_delayed _ _ _ s) -> now < c_time _ _ c.
End Node.
