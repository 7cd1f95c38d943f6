(** * Model of util/memory_content_cache.py

    Times and periods are integers of milliseconds (floats in Python). The clock reading of each
    call is given with the call. Logging is left out, and so are the calls of the face which
    register prefixes and the ids it returns. An application callback (onDataNotFound) is the
    last thing that _onInterest does, so what it does with the cache comes as the next calls. *)
From Verif Require Import Base TlvModel NameModel UriModel WireModel MatchModel.

Local Open Scope res_scope.
Section Mcc.
(** data.wireEncode(): the encoding of a packet, or an exception (WireModel.encodeData). *)
Variable enc : data -> res bytes.
(** cleanupIntervalMilliseconds *)
Variable interval : Z.

(** 463-480: _Content *)
Record plain : Type := Plain { p_name : name; p_enc : bytes }.
(** 487-538: _StaleTimeContent *)
Record stale : Type := Stale { k_name : name; k_enc : bytes; k_removal : Z; k_expiry : Z }.
(** 540-587: _PendingInterest; [q_ser] is the identity of the object *)
Record pending : Type := Pending { q_ser : nat; q_int : interest; q_face : Z; q_timeout : Z }.
(** What the outside sees: the reply to an interest, the onDataNotFound callback, the data sent
    to a stored interest when it is added, an exception raised by the call. *)
Inductive event : Type :=
| LReply (i : interest) (face : Z) (b : bytes) (now : Z)
| LNotFound (handler : Z) (i : interest) (face : Z)
| LPend (q : pending) (b : bytes) (now : Z)
| LRaise (x : exn).
(** 48-69 *)
Record state : Type := State {
  s_next : Z; s_handlers : list (list Z * Z); s_plain : list plain; s_stale : list stale;
  s_pend : list pending; s_nextSer : nat; s_min : Z; s_log : list event }.
Definition init (t0 : Z) : state := State (t0 + interval) [] [] [] [] 0 0 [].
Definition logs (s : state) (l : list event) : state :=
  State (s_next s) (s_handlers s) (s_plain s) (s_stale s) (s_pend s) (s_nextSer s) (s_min s) (s_log s ++ l).

(** 440-457: _doCleanup *)
Fixpoint purge (now : Z) (l : list stale) : list stale :=
  match l with
  | [] => []
  | c :: r => if k_removal c <=? now then purge now r else l
  end.
Definition doCleanup (s : state) (now : Z) : state :=
  if s_next s <=? now then
    State (now + interval) (s_handlers s) (s_plain s) (purge now (s_stale s)) (s_pend s) (s_nextSer s) (s_min s) (s_log s)
  else s.

(** 266-275: the position is searched from the back *)
Fixpoint insert_back (rev_l : list stale) (c : stale) : list stale :=
  match rev_l with
  | [] => [c]
  | x :: r => if k_removal x <=? k_removal c then c :: x :: r else x :: insert_back r c
  end.
(** 283-302: the loop over the pending interests, backwards ([rev_p]): what stays (reversed),
    what is sent, and the exception of matchesName if there is one. [fails face]: face.send raises,
    which is caught and ends the call. *)
Fixpoint answer (d : data) (b : bytes) (now : Z) (fails : Z -> bool) (rev_p : list pending) : list pending * list event * option exn :=
  match rev_p with
  | [] => ([], [], None)
  | p :: r =>
      if q_timeout p <=? now then answer d b now fails r
      else
        match i_matchesName (q_int p) (d_name d) with
        | Err x => (p :: r, [], Some x)
        | Ok true =>
            if fails (q_face p) then (p :: r, [], None)
            else let '(stay, l, x) := answer d b now fails r in (stay, LPend p b now :: l, x)
        | Ok false => let '(stay, l, x) := answer d b now fails r in (p :: stay, l, x)
        end
  end.
(** 238-302: add *)
Definition add (s0 : state) (d : data) (now : Z) (fails : Z -> bool) : state :=
  let s := doCleanup s0 now in
  match enc d with
  | Err x => logs s [LRaise x]
  | Ok b =>
      let s1 :=
        match mi_freshness (d_meta d) with
        | Some f =>
            if 0 <=? f then
              State (s_next s) (s_handlers s) (s_plain s)
                (rev (insert_back (rev (s_stale s)) (Stale (d_name d) b (now + Z.max f (s_min s)) (now + f))))
                (s_pend s) (s_nextSer s) (s_min s) (s_log s)
            else State (s_next s) (s_handlers s) (s_plain s ++ [Plain (d_name d) b]) (s_stale s) (s_pend s) (s_nextSer s) (s_min s) (s_log s)
        | None => State (s_next s) (s_handlers s) (s_plain s ++ [Plain (d_name d) b]) (s_stale s) (s_pend s) (s_nextSer s) (s_min s) (s_log s)
        end in
      let '(stay, l, x) := answer d b now fails (rev (s_pend s1)) in
      let s2 := State (s_next s1) (s_handlers s1) (s_plain s1) (s_stale s1) (rev stay) (s_nextSer s1) (s_min s1) (s_log s1 ++ l) in
      match x with Some x => logs s2 [LRaise x] | None => s2 end
  end.

(** 304-317 and 554-564: storePendingInterest *)
Definition lifetime (i : interest) : Z := match i_lifetime i with Some l => if l <? 0 then 4000 else l | None => 4000 end.
Definition store (s : state) (i : interest) (face now : Z) : state :=
  State (s_next s) (s_handlers s) (s_plain s) (s_stale s) (s_pend s ++ [Pending (s_nextSer s) i face (now + lifetime i)]) (S (s_nextSer s)) (s_min s) (s_log s).

(** 378-422: the loop over both lists; [sel] is the selected component and encoding *)
Fixpoint scan (i : interest) (sel : option (comp * bytes)) (items : list (name * bytes * bool)) : res (option bytes) :=
  match items with
  | [] => Ok (option_map snd sel)
  | (n, b, isFresh) :: r =>
      m <-- i_matchesName i n ;;
      if m && negb (i_mustBeFresh i && negb isFresh) then
        match i_child i with
        | None => Ok (Some b)
        | Some cs =>
            c <-- (if zlen (i_name i) <? zlen n then py_getitem n (zlen (i_name i)) else Ok (c_generic [])) ;;
            let better := match sel with
                          | None => true
                          | Some (c0, _) => if cs =? 0 then c_compare c c0 <? 0 else 0 <? c_compare c c0
                          end in
            scan i (if better : bool then Some (c, b) else sel) r
        end
      else scan i sel r
  end.
Definition items (s : state) (now : Z) : list (name * bytes * bool) :=
  map (fun c => (k_name c, k_enc c, now <? k_expiry c)) (s_stale s) ++ map (fun c => (p_name c, p_enc c, true)) (s_plain s).
Fixpoint lookup (k : list Z) (l : list (list Z * Z)) : option Z :=
  match l with [] => None | (k', h) :: r => if zlist_eqb k' k then Some h else lookup k r end.
(** 362-438: _onInterest; [fails]: face.send raises, which is not caught here *)
Definition onInterest (s0 : state) (prefix : name) (i : interest) (face now : Z) (fails : bool) : state :=
  let s := doCleanup s0 now in
  match scan i None (items s now) with
  | Err x => logs s [LRaise x]
  | Ok (Some b) => if fails then logs s [LRaise OtherError] else logs s [LReply i face b now]
  | Ok None => match lookup (n_toUri prefix false) (s_handlers s) with Some h => logs s [LNotFound h i face] | None => s end
  end.

(** 172-173, 209-214: the onDataNotFound of registerPrefix and setInterestFilter, a dictionary *)
Definition setHandler (s : state) (prefix : name) (h : option Z) : state :=
  match h with
  | None => s
  | Some h => State (s_next s) ((n_toUri prefix false, h) :: s_handlers s) (s_plain s) (s_stale s) (s_pend s) (s_nextSer s) (s_min s) (s_log s)
  end.

Inductive op : Type :=
| MAdd (d : data) (now : Z) (fails : Z -> bool)
| MInterest (prefix : name) (i : interest) (face now : Z) (fails : bool)    (* an interest arrives *)
| MStore (i : interest) (face now : Z)                                        (* storePendingInterest *)
| MSetMin (m : Z)                                                             (* 340-351 *)
| MFilter (prefix : name) (h : option Z)                                      (* setInterestFilter, registerPrefix *)
| MUnregisterAll.                                                             (* 219-236 *)
Definition step (s : state) (o : op) : state :=
  match o with
  | MAdd d now fails => add s d now fails
  | MInterest p i f now fails => onInterest s p i f now fails
  | MStore i f now => store s i f now
  | MSetMin m => State (s_next s) (s_handlers s) (s_plain s) (s_stale s) (s_pend s) (s_nextSer s) m (s_log s)
  | MFilter p h => setHandler s p h
  | MUnregisterAll => State (s_next s) [] (s_plain s) (s_stale s) (s_pend s) (s_nextSer s) (s_min s) (s_log s)
  end.
Definition run (s : state) (os : list op) : state := fold_left step os s.
End Mcc.
