(** * Model of the certificate containers of the validator.

    python/pyndn/security/v2/certificate_cache_v2.py, trust_anchor_container.py,
    trust_anchor_group.py, static_trust_anchor_group.py, dynamic_trust_anchor_group.py,
    certificate_storage.py, and the parts of Python's bisect module they use.

    A certificate is a value of any type [C] with its name, the end of its validity period
    (getValidityPeriod raises when the signature carries none) and the format check of the
    CertificateV2 copy constructor; an Interest for a certificate is a value of any type [I]
    with its name and a matching function.  The copy of a certificate is the value itself:
    changing a certificate object after it was stored is not modelled.  A time is a number
    of milliseconds; the containers only compare and add times, so they are integers.  Log
    messages are not modelled. *)
From Verif Require Import Base NameModel DictModel.
Local Open Scope res_scope.

(** name.py 1277-1278: Name.__lt__ (compare never raises here: C09_name_compare) *)
Definition n_ltb (a b : name) : bool := match n_compare a b with Ok c => c <? 0 | Err _ => false end.

(** ** bisect (the Python library module) *)
(** bisect.bisect_left: [while lo < hi: mid = (lo + hi) // 2; if a[mid] < x: lo = mid + 1; else: hi = mid] *)
Fixpoint bisect_left_loop (fuel : nat) (a : list name) (x : name) (lo hi : nat) : nat :=
  match fuel with
  | O => lo
  | S fuel' =>
      if (lo <? hi)%nat then
        let mid := Nat.div (lo + hi) 2 in
        match nth_error a mid with
        | Some y => if n_ltb y x then bisect_left_loop fuel' a x (S mid) hi else bisect_left_loop fuel' a x lo mid
        | None => lo
        end
      else lo
  end.
Definition bisect_left (a : list name) (x : name) : nat := bisect_left_loop (S (length a)) a x 0 (length a).
(** bisect.bisect_right: [if x < a[mid]: hi = mid; else: lo = mid + 1] *)
Fixpoint bisect_right_loop (fuel : nat) (a : list name) (x : name) (lo hi : nat) : nat :=
  match fuel with
  | O => lo
  | S fuel' =>
      if (lo <? hi)%nat then
        let mid := Nat.div (lo + hi) 2 in
        match nth_error a mid with
        | Some y => if n_ltb x y then bisect_right_loop fuel' a x lo mid else bisect_right_loop fuel' a x (S mid) hi
        | None => lo
        end
      else lo
  end.
Definition bisect_right (a : list name) (x : name) : nat := bisect_right_loop (S (length a)) a x 0 (length a).
(** bisect.insort: a.insert(bisect_right(a, x), x) *)
Definition insort (a : list name) (x : name) : list name := let i := bisect_right a x in firstn i a ++ x :: skipn i a.
(** list.remove(x), when the ValueError for a missing element is ignored *)
Fixpoint list_remove (a : list name) (x : name) : list name :=
  match a with [] => [] | y :: a' => if n_equals y x then a' else y :: list_remove a' x end.
(** list.pop(i) *)
Definition list_pop (a : list name) (i : nat) : list name := firstn i a ++ skipn (S i) a.

(** sys.float_info.max *)
Definition FLOAT_MAX : Z := (2 ^ 53 - 1) * 2 ^ 971.

Section Cert.
Context {C I : Type}.
Variable ct_name : C -> name.
(** certificate_v2.py 172-185 and validity_period.py getNotAfter *)
Variable ct_notAfter : C -> res Z.
(** certificate_v2.py 90-120: CertificateV2(certificate) *)
Variable ct_check : C -> res unit.
Variable i_name : I -> name.
(** interest.py matchesData *)
Variable i_matches : I -> C -> bool.

(** ** CertificateCacheV2 *)
(** certificate_cache_v2.py 44-56: the fields *)
Record cache : Type := Cache { cc_dict : dict name (C * Z); cc_keys : list name; cc_next : Z; cc_max : Z }.
Definition cc_new (maxLifetime : Z) : cache := Cache [] [] FLOAT_MAX maxLifetime.

(** certificate_cache_v2.py 58-97: insert *)
Definition cc_insert (s : cache) (now : Z) (c : C) : cache * res unit :=
  match ct_notAfter c with
  | Err e => (s, Err e)
  | Ok notAfter =>
      if notAfter <? now then (s, Ok tt)
      else
        let removal := Z.min notAfter (now + cc_max s) in
        let s := if removal <? cc_next s then Cache (cc_dict s) (cc_keys s) removal (cc_max s) else s in
        match ct_check c with
        | Err e => (s, Err e)
        | Ok _ =>
            let n := ct_name c in
            if din n_equals (cc_dict s) n then (Cache (dset n_equals (cc_dict s) n (c, removal)) (cc_keys s) (cc_next s) (cc_max s), Ok tt)
            else (Cache (dset n_equals (cc_dict s) n (c, removal)) (insort (cc_keys s) n) (cc_next s) (cc_max s), Ok tt)
        end
  end.

(** certificate_cache_v2.py 233-244: the loop of _refresh, from the last key to the first *)
Fixpoint refresh_loop (i : nat) (now : Z) (d : dict name (C * Z)) (keys : list name) (next : Z) : res (dict name (C * Z) * list name * Z) :=
  match i with
  | O => Ok (d, keys, next)
  | S j =>
      match nth_error keys j with
      | None => Err IndexError
      | Some k =>
          e <-- dindex n_equals d k ;;
          if snd e <=? now then d' <-- ddel n_equals d k ;; refresh_loop j now d' (list_pop keys j) next
          else refresh_loop j now d keys (Z.min next (snd e))
      end
  end.
(** certificate_cache_v2.py 222-246: _refresh.  On an exception the partial updates are not
    modelled (there is none: C41_contents). *)
Definition cc_refresh (s : cache) (now : Z) : res cache :=
  if now <? cc_next s then Ok s
  else
    r <-- refresh_loop (length (cc_keys s)) now (cc_dict s) (cc_keys s) FLOAT_MAX ;;
    let '(d, keys, next) := r in Ok (Cache d keys next (cc_max s)).

(** certificate_cache_v2.py 112-127: find, given a Name *)
Definition cc_find_name (s : cache) (now : Z) (p : name) : res (cache * option C) :=
  s <-- cc_refresh s now ;;
  match nth_error (cc_keys s) (bisect_left (cc_keys s) p) with
  | None => Ok (s, None)
  | Some k =>
      if negb (n_isPrefixOf p k) then Ok (s, None)
      else e <-- dindex n_equals (cc_dict s) k ;; Ok (s, Some (fst e))
  end.

(** certificate_cache_v2.py 147-158: the loop of find, over the keys from index i on *)
Fixpoint find_loop (d : dict name (C * Z)) (i : I) (keys : list name) : res (option C) :=
  match keys with
  | [] => Ok None
  | k :: ks =>
      e <-- dindex n_equals d k ;;
      if negb (n_isPrefixOf (i_name i) (ct_name (fst e))) then Ok None
      else if i_matches i (fst e) then Ok (Some (fst e))
      else find_loop d i ks
  end.
(** certificate_cache_v2.py 128-158: find, given an Interest *)
Definition cc_find (s : cache) (now : Z) (i : I) : res (cache * option C) :=
  s <-- cc_refresh s now ;;
  r <-- find_loop (cc_dict s) i (skipn (bisect_left (cc_keys s) (i_name i)) (cc_keys s)) ;;
  Ok (s, r).

(** certificate_cache_v2.py 160-180: deleteCertificate *)
Definition cc_delete (s : cache) (n : name) : cache :=
  Cache (dremove n_equals (cc_dict s) n) (list_remove (cc_keys s) n) (cc_next s) (cc_max s).
(** certificate_cache_v2.py 182-188: clear *)
Definition cc_clear (s : cache) : cache := Cache [] [] FLOAT_MAX (cc_max s).

(** ** TrustAnchorContainer *)
(** trust_anchor_container.py 200-252: _AnchorContainer *)
Record anchors : Type := Anchors { ac_dict : dict name C; ac_keys : list name }.
Definition ac_empty : anchors := Anchors [] [].
Definition in_list (n : name) (l : list name) : bool := existsb (fun k => n_equals k n) l.
(** trust_anchor_container.py 208-226: add *)
Definition ac_add (a : anchors) (c : C) : res anchors :=
  _ <-- ct_check c ;;
  let n := ct_name c in
  if in_list n (ac_keys a) then Ok (Anchors (dset n_equals (ac_dict a) n c) (ac_keys a))
  else Ok (Anchors (dset n_equals (ac_dict a) n c) (insort (ac_keys a) n)).
(** trust_anchor_container.py 228-242: remove *)
Definition ac_remove (a : anchors) (n : name) : anchors := Anchors (dremove n_equals (ac_dict a) n) (list_remove (ac_keys a) n).
(** trust_anchor_container.py 251-252: size *)
Definition ac_size (a : anchors) : Z := zlen (ac_dict a).

(** trust_anchor_group.py 38-42, dynamic_trust_anchor_group.py 47-56: a group and the names
    it holds; for a dynamic group also the refresh period and the time to refresh. *)
Record group : Type := Group { g_names : list name; g_dynamic : option (Z * Z) }.
(** the container: the group of each group ID (any integer for the ID string) *)
Record container : Type := Container { tc_groups : dict Z group; tc_anchors : anchors }.
Definition tc_new : container := Container [] ac_empty.
(** set.add, set.remove of the names of a group *)
Definition set_add (l : list name) (n : name) : list name := if in_list n l then l else l ++ [n].
Definition set_remove (l : list name) (n : name) : res (list name) := if in_list n l then Ok (list_remove l n) else Err KeyError.

(** static_trust_anchor_group.py 39-53: add *)
Definition static_add (g : group) (a : anchors) (c : C) : group * anchors * res unit :=
  if in_list (ct_name c) (g_names g) then (g, a, Ok tt)
  else
    let g' := Group (set_add (g_names g) (ct_name c)) (g_dynamic g) in
    match ac_add a c with Ok a' => (g', a', Ok tt) | Err e => (g', a, Err e) end.
(** static_trust_anchor_group.py 55-66: remove *)
Definition static_remove (g : group) (a : anchors) (n : name) : group * anchors := (Group (list_remove (g_names g) n) (g_dynamic g), ac_remove a n).

(** dynamic_trust_anchor_group.py 95-106: _loadCertificate for each file: the certificate
    read from it, None for an unreadable one.  The names of the group, the anchors and the
    old names. *)
Fixpoint load_files (files : list (option C)) (names : list name) (a : anchors) (old : list name) : list name * anchors * res (list name) :=
  match files with
  | [] => (names, a, Ok old)
  | None :: fs => load_files fs names a old
  | Some c :: fs =>
      if negb (in_list (ct_name c) names) then
        let names' := set_add names (ct_name c) in
        match ac_add a c with
        | Ok a' => load_files fs names' a' old
        | Err e => (names', a, Err e)
        end
      else
        match set_remove old (ct_name c) with
        | Ok old' => load_files fs names a old'
        | Err e => (names, a, Err e)
        end
  end.
(** dynamic_trust_anchor_group.py 91-93: remove the old certificates *)
Fixpoint drop_old (old : list name) (names : list name) (a : anchors) : list name * anchors * res unit :=
  match old with
  | [] => (names, a, Ok tt)
  | n :: old' =>
      match set_remove names n with
      | Err e => (names, a, Err e)
      | Ok names' => drop_old old' names' (ac_remove a n)
      end
  end.
(** dynamic_trust_anchor_group.py 63-93 and trust_anchor_group.py 62-66: refresh.  [files] is
    what the directory (or the single file) holds now; a directory that cannot be listed
    is an error. *)
Definition g_refresh (g : group) (a : anchors) (now : Z) (files : res (list (option C))) : group * anchors * res unit :=
  match g_dynamic g with
  | None => (g, a, Ok tt)
  | Some (period, expire) =>
      if now <? expire then (g, a, Ok tt)
      else
        let dyn := Some (period, now + period) in
        match files with
        | Err e => (Group (g_names g) dyn, a, Err e)
        | Ok fs =>
            match load_files fs (g_names g) a (g_names g) with
            | (names, a', Err e) => (Group names dyn, a', Err e)
            | (names, a', Ok old) =>
                match drop_old old names a' with
                | (names', a'', r) => (Group names' dyn, a'', r)
                end
            end
        end
  end.

(** trust_anchor_container.py 90-104: insert of a certificate (a static anchor).  The class
    TrustAnchorContainer.Error is [OtherError]. *)
Definition tc_insert (t : container) (id : Z) (c : C) : container * res unit :=
  let '(t, g) := match dget Z.eqb (tc_groups t) id with
    | Some g => (t, g)
    | None => let g := Group [] None in (Container (dset Z.eqb (tc_groups t) id g) (tc_anchors t), g)
    end in
  match g_dynamic g with
  | Some _ => (t, Err OtherError)
  | None =>
      let '(g', a', r) := static_add g (tc_anchors t) c in
      (Container (dset Z.eqb (tc_groups t) id g') a', r)
  end.
(** trust_anchor_container.py 105-114: insert of a path (a dynamic group) *)
Definition tc_insertPath (t : container) (id period now : Z) (files : res (list (option C))) : container * res unit :=
  if din Z.eqb (tc_groups t) id then (t, Err OtherError)
  else if period <=? 0 then (t, Err ValueError)
  else
    let '(g, a, r) := g_refresh (Group [] (Some (period, 0))) (tc_anchors t) now files in
    match r with
    | Ok _ => (Container (dset Z.eqb (tc_groups t) id g) a, Ok tt)
    | Err e => (Container (tc_groups t) a, Err e)
    end.
(** getGroup(id).remove(name): trust_anchor_container.py 174-189 *)
Definition tc_remove (t : container) (id : Z) (n : name) : container * res unit :=
  match dget Z.eqb (tc_groups t) id with
  | None => (t, Err OtherError)
  | Some g =>
      match g_dynamic g with
      | Some _ => (t, Err AttributeError)
      | None => let '(g', a') := static_remove g (tc_anchors t) n in (Container (dset Z.eqb (tc_groups t) id g') a', Ok tt)
      end
  end.
(** trust_anchor_container.py 116-121: clear *)
Definition tc_clear (t : container) : container := Container [] ac_empty.
(** trust_anchor_container.py 254-256: _refresh *)
Fixpoint refresh_groups (now : Z) (files : Z -> res (list (option C))) (gs : dict Z group) (a : anchors) : dict Z group * anchors * res unit :=
  match gs with
  | [] => ([], a, Ok tt)
  | (id, g) :: gs' =>
      match g_refresh g a now (files id) with
      | (g', a', Err e) => ((id, g') :: gs', a', Err e)
      | (g', a', Ok _) => let '(gs'', a'', r) := refresh_groups now files gs' a' in ((id, g') :: gs'', a'', r)
      end
  end.
Definition tc_refresh (t : container) (now : Z) (files : Z -> res (list (option C))) : container * res unit :=
  let '(gs, a, r) := refresh_groups now files (tc_groups t) (tc_anchors t) in (Container gs a, r).
(** trust_anchor_container.py 161-172: the loop of find *)
Fixpoint tc_find_loop (d : dict name C) (i : I) (keys : list name) : res (option C) :=
  match keys with
  | [] => Ok None
  | k :: ks =>
      c <-- dindex n_equals d k ;;
      if negb (n_isPrefixOf (i_name i) (ct_name c)) then Ok None
      else if i_matches i c then Ok (Some c)
      else tc_find_loop d i ks
  end.
(** trust_anchor_container.py 137-172: find, given a Name or an Interest, after _refresh *)
Definition ac_find_name (a : anchors) (p : name) : res (option C) :=
  match nth_error (ac_keys a) (bisect_left (ac_keys a) p) with
  | None => Ok None
  | Some k => c <-- dindex n_equals (ac_dict a) k ;; if negb (n_isPrefixOf p (ct_name c)) then Ok None else Ok (Some c)
  end.
Definition ac_find (a : anchors) (i : I) : res (option C) := tc_find_loop (ac_dict a) i (skipn (bisect_left (ac_keys a) (i_name i)) (ac_keys a)).
Definition tc_find_name (t : container) (now : Z) (files : Z -> res (list (option C))) (p : name) : container * res (option C) :=
  let '(t, r) := tc_refresh t now files in match r with Ok _ => (t, ac_find_name (tc_anchors t) p) | Err e => (t, Err e) end.
Definition tc_find (t : container) (now : Z) (files : Z -> res (list (option C))) (i : I) : container * res (option C) :=
  let '(t, r) := tc_refresh t now files in match r with Ok _ => (t, ac_find (tc_anchors t) i) | Err e => (t, Err e) end.
End Cert.
Arguments cache : clear implicits.
Arguments anchors : clear implicits.
Arguments container : clear implicits.
