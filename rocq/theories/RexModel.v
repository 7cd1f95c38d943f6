(** * Model of util/exponential_re_express.py: ExponentialReExpress, the onTimeout callback that expresses an
    Interest again with twice the lifetime

    The callback has no state of its own: it is used for any number of Interests of one Face, here with
    the same onData, onTimeout and maxInterestLifetime. The Face is what node.py 116-145, 497-552, 619-626 and
    impl/pending_interest_table.py do with one expressed Interest: it is pending until the Data comes, until it
    has timed out or until removePendingInterest. Simplified: a Data packet answers the pending Interests that
    the history says (in the code those that match it); the lifetimes are whole milliseconds (in the code
    floats; twice a float is exact); exceptions of sending are not shown: the Interest is already pending
    (node.py 526-549) and the exception is logged. *)
From Verif Require Import Base NameModel WireModel CtlModel MatchModel RegModel.

(** exponential_re_express.py 76-78 *)
Definition maxOf (given : option Z) : Z := match given with None => 16000 | Some m => m end.

(** interest.py 568-580: the nonce is for the values before the change (197-210) *)
Definition setLifetime (i : interest) (l : Z) : interest :=
  Interest (i_name i) (i_min i) (i_max i) (i_keyLocator i) (i_exclude i) (i_child i) (i_mustBeFresh i) None (if l <? 0 then None else Some l)
    (i_hint i) (i_params i) (i_link i) (i_selected i).

(** A pending Interest: the id of expressInterest, the Interest that the application has expressed it for (the id
    of that), the copy that is sent, and the time when it times out *)
Record pend : Type := Pend { p_id : Z; p_chain : Z; p_int : interest; p_due : Z }.
(** What happens, in order, with the time: an Interest is sent, the onData or the onTimeout of the application is called, the
    pending Interest was removed by the application *)
Inductive act : Type := AExpress (i : interest) | AData (i : interest) (d : data) | ATimeout (i : interest) | ARemoved.
Record world : Type := World { w_pend : list pend; w_next : Z; w_log : list (Z * Z * act) }.
Definition world_new : world := World [] 0 [].

Section Rex.
Variable max : Z.

(** node.py 116-125 (withNonce), 497-542: the new entry has the next id *)
Definition expressInterest (w : world) (t chain : Z) (i : interest) (nonce : bytes) : world :=
  let i := withNonce i nonce in
  let delay := match i_lifetime i with Some l => if l <? 0 then 4000 else l | None => 4000 end in
  World (w_pend w ++ [Pend (w_next w) chain i (t + delay)]) (w_next w + 1) (w_log w ++ [(t, chain, AExpress i)]).
(** exponential_re_express.py 83-106: _onTimeout; exceptions of the onTimeout of the application are logged *)
Definition onTimeout (w : world) (t chain : Z) (i : interest) (nonce : bytes) : world :=
  let stop := World (w_pend w) (w_next w) (w_log w ++ [(t, chain, ATimeout i)]) in
  match i_lifetime i with
  | None => stop
  | Some l => let next := l * 2 in if max <? next then stop else expressInterest w t chain (setLifetime i next) nonce
  end.

(** Events: the application expresses an Interest with the callback as its onTimeout; Data for a pending Interest
    comes; the Face looks at the timeout of a pending Interest; the application removes a pending Interest. [nonce]: the
    random bytes for a new nonce. *)
Inductive event : Type :=
| EExpress (t : Z) (i : interest) (nonce : bytes) | EData (t id : Z) (d : data) | ETimeout (t id : Z) (nonce : bytes) | ERemove (t id : Z).
Fixpoint find (id : Z) (l : list pend) : option pend := match l with [] => None | p :: l' => if p_id p =? id then Some p else find id l' end.
Fixpoint drop (id : Z) (l : list pend) : list pend := match l with [] => [] | p :: l' => if p_id p =? id then drop id l' else p :: drop id l' end.
Definition step (w : world) (e : event) : world :=
  match e with
  | EExpress t i nonce => expressInterest w t (w_next w) i nonce
  | EData t id d =>
      match find id (w_pend w) with
      | None => w
      | Some p => World (drop id (w_pend w)) (w_next w) (w_log w ++ [(t, p_chain p, AData (p_int p) d)])
      end
  | ETimeout t id nonce =>
      match find id (w_pend w) with
      | None => w
      | Some p => if p_due p <=? t then onTimeout (World (drop id (w_pend w)) (w_next w) (w_log w)) t (p_chain p) (p_int p) nonce else w
      end
  | ERemove t id =>
      match find id (w_pend w) with
      | None => w
      | Some p => World (drop id (w_pend w)) (w_next w) (w_log w ++ [(t, p_chain p, ARemoved)])
      end
  end.
Definition run (h : list event) : world := fold_left step h world_new.
End Rex.
