(** * Model of the functions of the Producer that add ranges to an Exclude filter.

    python/pyndn/encrypt/producer.py 451-651. *)
From Verif Require Import Base NameModel WireModel.
Local Open Scope res_scope.

(** producer.py 452-461: ExcludeEntry: the component and anyFollowsComponent *)
Notation entry := (comp * bool)%type.
(** Name.Component() *)
Definition c_empty : comp := c_generic [].

(** producer.py 463-486: getExcludeEntries; [acc] are the entries so far *)
Definition set_last (l : list entry) : list entry := match rev l with [] => [] | (c, _) :: r => rev r ++ [(c, true)] end.
Fixpoint entries_from (acc : list entry) (es : list exentry) : list entry :=
  match es with
  | [] => acc
  | ExAny :: es' => entries_from (match acc with [] => [(c_empty, true)] | _ :: _ => set_last acc end) es'
  | ExComp c :: es' => entries_from (acc ++ [(c, false)]) es'
  end.
Definition getExcludeEntries (es : list exentry) : list entry := entries_from [] es.

(** producer.py 488-508: setExcludeEntries *)
Definition put_entry (e : entry) : list exentry := ExComp (fst e) :: (if snd e then [ExAny] else []).
Definition setExcludeEntries (l : list entry) : list exentry :=
  match l with
  | [] => []
  | e :: r => (if (zlen (c_value (fst e)) =? 0) && snd e then [ExAny] else put_entry e) ++ flat_map put_entry r
  end.

(** producer.py 510-527: findEntryBeforeOrAt: the last index *)
Fixpoint find_from (i : Z) (l : list entry) (c : comp) : Z :=
  match l with
  | [] => -1
  | e :: r => let j := find_from (i + 1) r c in if j <? 0 then (if c_compare (fst e) c <=? 0 then i else -1) else j
  end.
Definition findEntryBeforeOrAt (l : list entry) (c : comp) : Z := find_from 0 l c.

(** entries.insert(i, e), entries[i]._anyFollowsComponent = True, entries[a:b] = [] *)
Definition l_insert (i : Z) (e : entry) (l : list entry) : list entry := firstn (Z.to_nat i) l ++ e :: skipn (Z.to_nat i) l.
Definition l_any (i : Z) (l : list entry) : list entry :=
  match skipn (Z.to_nat i) l with [] => l | (c, _) :: r => firstn (Z.to_nat i) l ++ (c, true) :: r end.
Definition l_del (a b : Z) (l : list entry) : list entry := firstn (Z.to_nat a) l ++ skipn (Z.to_nat (Z.max a b)) l.

(** producer.py 540-562 and 602-624: the entry of "fromComponent": the entries and iNewFrom *)
Definition putFrom (l : list entry) (from : comp) : list entry * Z :=
  let i := findEntryBeforeOrAt l from in
  if i <? 0 then (l_insert 0 (from, true) l, 0)
  else
    match nth_error l (Z.to_nat i) with
    | None => (l, i)
    | Some (c, any) =>
        if negb any then
          if c_equals c from then (l_any i l, i) else (l_insert (i + 1) (from, true) l, i + 1)
        else (l, i)
    end.

(** producer.py 529-568: excludeAfter *)
Definition excludeAfter (es : list exentry) (from : comp) : list exentry :=
  let '(l, i) := putFrom (getExcludeEntries es) from in setExcludeEntries (l_del (i + 1) (zlen l) l).

(** producer.py 580-651: excludeRange *)
Definition excludeRange (es : list exentry) (from to : comp) : res (list exentry) :=
  if 0 <=? c_compare from to then Err RuntimeError
  else
    let '(l, iNewFrom) := putFrom (getExcludeEntries es) from in
    let iFoundTo := findEntryBeforeOrAt l to in
    let l' :=
      if iFoundTo =? iNewFrom then l_insert (iNewFrom + 1) (to, false) l
      else
        match nth_error l (Z.to_nat iFoundTo) with
        | None => l
        | Some (c, any) =>
            let '(l2, iRemoveEnd) :=
              if negb any then
                if c_equals c to then (l, iFoundTo) else (l_insert (iFoundTo + 1) (to, false) l, iFoundTo + 1)
              else (l, iFoundTo + 1) in
            l_del (iNewFrom + 1) iRemoveEnd l2
        end in
    Ok (setExcludeEntries l').

(** producer.py 570-578: excludeBefore *)
Definition excludeBefore (es : list exentry) (to : comp) : res (list exentry) := excludeRange es c_empty to.
