(** * Model of the NDN regular expressions: util/regex/*.py, and interest_filter.py

    A str is the list of its code points.  Python's [re] is given by two arbitrary functions:
    [re_groups] (re.compile: the number of groups, or the exception) and [re_search] (search:
    None, or the groups, a group that did not participate being None).  NdnRegexMatcherBase.Error
    is [OtherError].

    A matcher is called with a name, an offset and a length, which always denote a slice of the
    name: here it is called with the slice.  Index arithmetic in the text of the expression is
    replaced by splitting the text.  Of the match results of the matchers only those which
    a back reference can show are kept: the results of all the back references of one back
    reference manager are a function of the number of the reference.  Python's limit
    of nested calls is not modelled. *)
From Verif Require Import Base NameModel UriModel BlobModel.
Local Open Scope res_scope.

Section Regex.
Variable re_groups : str -> res nat.
Variable re_search : str -> str -> option (list (option str)).

Definition refs : Type := nat -> list comp.
Definition refs_new : refs := fun _ => [].
Definition set_ref (s : refs) (k : nat) (v : list comp) : refs := fun j => if Nat.eqb j k then v else s j.

(** ** The matchers *)
(** ndn_regex_component_matcher.py 33-42, 73-82: the text of the component and the number of its
    first pseudo matcher *)
Record cm : Type := Cm { cm_expr : str; cm_ref : nat; cm_groups : nat }.
Inductive matcher : Type :=
  | MSet (isInclusion : bool) (components : list cm)       (* NdnRegexComponentSetMatcher *)
  | MGroup (ref : nat) (l : list matcher)                  (* NdnRegexBackrefMatcher with its NdnRegexPatternListMatcher *)
  | MRep (m : matcher) (repeatMin repeatMax : Z).          (* NdnRegexRepeatMatcher *)

(** name.py 72-97: Name.Component(value) for a str or None *)
Definition comp_of_str (t : option str) : comp :=
  match t with None => c_generic [] | Some t => match utf8_encode t with Ok b => c_generic b | Err _ => c_generic [] end end.
(** ndn_regex_component_matcher.py 61-63; ndn_regex_pseudo_matcher.py 35-42 *)
Fixpoint set_pseudo (s : refs) (k : nat) (g : list (option str)) : refs :=
  match g with [] => s | t :: g' => set_pseudo (set_ref s k [comp_of_str t]) (S k) g' end.
(** ndn_regex_component_matcher.py 44-71: match *)
Definition cm_match (m : cm) (c : comp) (s : refs) : refs * bool :=
  match cm_expr m with
  | [] => (s, true)
  | _ => match re_search (cm_expr m) (c_toEscapedString c) with
         | Some g => (set_pseudo s (cm_ref m) (firstn (cm_groups m) g), true)
         | None => (s, false)
         end
  end.
(** ndn_regex_component_set_matcher.py 53-56 *)
Fixpoint set_match (l : list cm) (c : comp) (s : refs) : refs * bool :=
  match l with
  | [] => (s, false)
  | m :: l' => match cm_match m c s with (s', true) => (s', true) | (s', false) => set_match l' c s' end
  end.
(** The loops "while tried >= 0" of ndn_regex_matcher_base.py 123-130 and
    ndn_regex_repeat_matcher.py 160-167 *)
Fixpoint try_from (f : nat -> refs -> refs * bool) (tried : nat) (s : refs) : refs * bool :=
  match f tried s with
  | (s', true) => (s', true)
  | (s', false) => match tried with O => (s', false) | S t => try_from f t s' end
  end.
(** ndn_regex_repeat_matcher.py 140-167: _recursiveMatch2; [n] is repeatMax - repeat *)
Fixpoint recursiveMatch2 (inner : list comp -> refs -> refs * bool) (mn mx : Z) (n : nat) (repeat : Z) (w : list comp) (s : refs) : refs * bool :=
  if (0 <? zlen w) && (mx <=? repeat) then (s, false)
  else if (zlen w =? 0) && (repeat <? mn) then (s, false)
  else if (zlen w =? 0) && (mn <=? repeat) then (s, true)
  else
    match n with
    | O => (s, false)
    | S n' =>
        try_from (fun tried s =>
          match inner (firstn tried w) s with
          | (s', true) => recursiveMatch2 inner mn mx n' (repeat + 1) (skipn tried w) s'
          | (s', false) => (s', false)
          end) (length w) s
    end.
(** ndn_regex_matcher_base.py 65-85, 108-130 (a pattern list, and a back reference, which has one
    pattern list), ndn_regex_repeat_matcher.py 42-60, ndn_regex_component_set_matcher.py 40-64 *)
Fixpoint m_match (m : matcher) (w : list comp) (s : refs) {struct m} : refs * bool :=
  let fix recursiveMatch (l : list matcher) (w : list comp) (s : refs) {struct l} : refs * bool :=
    match l with
    | [] => (s, zlen w =? 0)
    | m :: l' =>
        try_from (fun tried s =>
          match m_match m (firstn tried w) s with
          | (s', true) => recursiveMatch l' (skipn tried w) s'
          | (s', false) => (s', false)
          end) (length w) s
    end in
  match m with
  | MSet incl cs =>
      match w with
      | [c] => let '(s', b) := set_match cs c s in (s', if incl then b else negb b)
      | _ => (s, false)
      end
  | MGroup k l =>
      let s0 := set_ref s k [] in
      match try_from (fun tried s => match recursiveMatch l (firstn tried w) s with
                                     | (s', true) => (s', zlen w - Z.of_nat tried =? 0)
                                     | (s', false) => (s', false)
                                     end) (length w) s0 with
      | (s', true) => (set_ref s' k w, true)
      | (s', false) => (s', false)
      end
  | MRep m mn mx =>
      if (mn =? 0) && (zlen w =? 0) then (s, true)
      else recursiveMatch2 (m_match m) mn mx (Z.to_nat mx) 0 w s
  end.
(** ndn_regex_matcher_base.py 65-85, 108-130 for the pattern list of the top matcher *)
Fixpoint l_match (l : list matcher) (w : list comp) (s : refs) : refs * bool :=
  match l with
  | [] => (s, zlen w =? 0)
  | m :: l' =>
      try_from (fun tried s =>
        match m_match m (firstn tried w) s with
        | (s', true) => l_match l' (skipn tried w) s'
        | (s', false) => (s', false)
        end) (length w) s
  end.

(** ** The compiler *)
(** ndn_regex_pattern_list_matcher.py 94-116: _extractSubPattern, and
    ndn_regex_component_set_matcher.py 91-110: _extractComponent; [d] is lcount - rcount.  The text
    up to and with the closing bracket, and the rest. *)
Fixpoint sub_pattern (l r : Z) (d : nat) (t : str) : res (str * str) :=
  match t with
  | [] => Err OtherError
  | c :: t' =>
      let d := if c =? l then S d else d in
      let d := if c =? r then Nat.pred d else d in
      match d with
      | O => Ok ([c], t')
      | S _ => p <-- sub_pattern l r d t' ;; Ok (c :: fst p, snd p)
      end
  end.
(** ndn_regex_pattern_list_matcher.py 133-143 *)
Fixpoint to_brace (t : str) : res (str * str) :=
  match t with
  | [] => Err OtherError
  | c :: t' => if c =? 125 then Ok ([c], t') else p <-- to_brace t' ;; Ok (c :: fst p, snd p)
  end.
(** ndn_regex_pattern_list_matcher.py 118-145: _extractRepetition: the text of the repetition, and
    the rest *)
Definition repetition (t : str) : res (str * str) :=
  match t with
  | [] => Ok ([], [])
  | c :: t' =>
      if (c =? 43) || (c =? 63) || (c =? 42) then Ok ([c], t')
      else if c =? 123 then to_brace t
      else Ok ([], t)
  end.
Definition is_digit (c : Z) : bool := (48 <=? c) && (c <=? 57).
(** int() of a text of digits *)
Definition int_digits (t : str) : Z := fold_left (fun a c => 10 * a + (c - 48)) t 0.
Definition digits (t : str) : bool := negb (zlen t =? 0) && forallb is_digit t.
Definition MAX_REPETITIONS : Z := 32767.
(** ndn_regex_repeat_matcher.py 79-138: _parseRepetition, of the text after the indicator (which
    ends at its first right brace) *)
Definition parseRepetition (t : str) : res (Z * Z) :=
  match t with
  | [] => Ok (1, 1)
  | [c] => if c =? 63 then Ok (0, 1) else if c =? 43 then Ok (1, MAX_REPETITIONS) else if c =? 42 then Ok (0, MAX_REPETITIONS) else Ok (0, 0)
  | _ :: t' =>
      let inner := removelast t' in
      mm <-- (match find_idx 44 inner with
              | Some i =>
                  let a := firstn i inner in let b := skipn (S i) inner in
                  if digits a && digits b then Ok (int_digits a, int_digits b)
                  else if (zlen a =? 0) && digits b then Ok (0, int_digits b)
                  else if digits a && (zlen b =? 0) then Ok (int_digits a, MAX_REPETITIONS)
                  else Err OtherError
              | None => if digits inner then Ok (int_digits inner, int_digits inner) else Err OtherError
              end) ;;
      if (MAX_REPETITIONS <? fst mm) || (MAX_REPETITIONS <? snd mm) || (snd mm <? fst mm) then Err OtherError else Ok mm
  end.
(** ndn_regex_component_matcher.py 73-82; [k] is the number of back references so far *)
Definition compile_component (t : str) (k : nat) : res (cm * nat) := g <-- re_groups t ;; Ok (Cm t k g, (k + g)%nat).
(** ndn_regex_component_set_matcher.py 123-146: _compileMultipleComponents, of the text from the
    current index to the end, which is the right bracket; each round takes two characters *)
Fixpoint compile_multiple (fuel : nat) (t : str) (k : nat) : res (list cm * nat) :=
  match t with
  | [] => Err OtherError
  | [_] => Ok ([], k)
  | c :: t' =>
      if negb (c =? 60) then Err OtherError
      else
        p <-- sub_pattern 60 62 1 t' ;;
        c <-- compile_component (removelast (fst p)) k ;;
        match fuel with
        | O => Err OutOfFuel
        | S f => r <-- compile_multiple f (snd p) (snd c) ;; Ok (fst c :: fst r, snd r)
        end
  end.
(** ndn_regex_component_set_matcher.py 66-89, 112-121: _compile, for a text that begins with [open]
    and goes on with [t] *)
Definition compile_set (opening : Z) (t : str) (k : nat) : res (matcher * nat) :=
  if opening =? 60 then
    p <-- sub_pattern 60 62 1 t ;;
    match snd p with
    | [] => c <-- compile_component (removelast (fst p)) k ;; Ok (MSet true [fst c], snd c)
    | _ => Err OtherError
    end
  else
    match t with
    | 94 :: t' => r <-- compile_multiple (length t') t' k ;; Ok (MSet false (fst r), snd r)
    | _ => r <-- compile_multiple (length t) t k ;; Ok (MSet true (fst r), snd r)
    end.
(** ndn_regex_pattern_list_matcher.py 36-92: _compile and _extractPattern;
    ndn_regex_backref_matcher.py 37-47; ndn_regex_repeat_matcher.py 62-77.  [fuel] is the length of
    the text. *)
Fixpoint compile_list (fuel : nat) (t : str) (k : nat) : res (list matcher * nat) :=
  match t with
  | [] => Ok ([], k)
  | c :: t' =>
      match fuel with
      | O => Err OutOfFuel
      | S f =>
          if c =? 40 then
            p <-- sub_pattern 40 41 1 t' ;;
            q <-- repetition (snd p) ;;
            g <-- compile_list f (removelast (fst p)) (S k) ;;
            m <-- (match fst q with
                   | [] => Ok (MGroup k (fst g))
                   | _ => r <-- parseRepetition (fst q) ;; Ok (MRep (MGroup k (fst g)) (fst r) (snd r))
                   end) ;;
            l <-- compile_list f (snd q) (snd g) ;;
            Ok (m :: fst l, snd l)
          else if (c =? 60) || (c =? 91) then
            p <-- sub_pattern c (if c =? 60 then 62 else 93) 1 t' ;;
            q <-- repetition (snd p) ;;
            g <-- compile_set c (fst p) k ;;
            r <-- parseRepetition (fst q) ;;
            l <-- compile_list f (snd q) (snd g) ;;
            Ok (MRep (fst g) (fst r) (snd r) :: fst l, snd l)
          else Err OtherError
      end
  end.
Definition compile (t : str) : res (list matcher * nat) := compile_list (length t) t 0.

(** ** The top matcher *)
(** "<.*>*" *)
Definition ANY : str := [60; 46; 42; 62; 42].
(** ndn_regex_top_matcher.py 33-44: the two pattern lists with their numbers of back references and
    their results; _isSecondaryUsed; the match result *)
Record top : Type := Top {
  t_primary : list matcher; t_pn : nat; t_prefs : refs;
  t_secondary : option (list matcher); t_sn : nat; t_srefs : refs;
  t_secondaryUsed : bool; t_result : list comp }.
(** ndn_regex_top_matcher.py 132-149: _compile *)
Definition top_new (expr : str) : res top :=
  match expr with
  | [] => Err IndexError
  | _ =>
      let e := if last expr 0 =? 36 then removelast expr else expr ++ ANY in
      match e with
      | [] => Err IndexError
      | c :: e' =>
          if c =? 94 then p <-- compile e' ;; Ok (Top (fst p) (snd p) refs_new None 0 refs_new false [])
          else
            q <-- compile (ANY ++ e) ;; p <-- compile e ;;
            Ok (Top (fst p) (snd p) refs_new (Some (fst q)) (snd q) refs_new false [])
      end
  end.
(** ndn_regex_top_matcher.py 46-71: match *)
Definition top_match (x : top) (n : name) : top * bool :=
  match l_match (t_primary x) n (t_prefs x) with
  | (s, true) => (Top (t_primary x) (t_pn x) s (t_secondary x) (t_sn x) (t_srefs x) false n, true)
  | (s, false) =>
      match t_secondary x with
      | None => (Top (t_primary x) (t_pn x) s None (t_sn x) (t_srefs x) false [], false)
      | Some l =>
          match l_match l n (t_srefs x) with
          | (s2, true) => (Top (t_primary x) (t_pn x) s (Some l) (t_sn x) s2 true n, true)
          | (s2, false) => (Top (t_primary x) (t_pn x) s (Some l) (t_sn x) s2 false [], false)
          end
      end
  end.
(** ndn_regex_top_matcher.py 181-194: the rest of a text item *)
Fixpoint expand_text (d : nat) (t : str) : res (str * str) :=
  match t with
  | [] => Err IndexError
  | c :: t' =>
      let d := if c =? 60 then S d else d in
      let d := if c =? 62 then Nat.pred d else d in
      match t' with
      | [] => Err OtherError
      | _ => match d with O => Ok ([c], t') | S _ => p <-- expand_text d t' ;; Ok (c :: fst p, snd p) end
      end
  end.
Fixpoint span_digits (t : str) : str * str :=
  match t with c :: t' => if is_digit c then let p := span_digits t' in (c :: fst p, snd p) else ([], t) | [] => ([], []) end.
(** ndn_regex_top_matcher.py 73-110, 151-196: expand and _getItemFromExpand.  name.py 562-612:
    Name.append of a str *)
Definition ref_result (x : top) (i : Z) : res (list comp) :=
  let n := if t_secondaryUsed x then t_sn x else t_pn x in
  let s := if t_secondaryUsed x then t_srefs x else t_prefs x in
  if i =? 0 then Ok (t_result x) else if i <=? Z.of_nat n then Ok (s (Z.to_nat (i - 1))) else Err OtherError.
Fixpoint expand_loop (fuel : nat) (x : top) (t : str) : res name :=
  match t with
  | [] => Ok []
  | c :: t' =>
      match fuel with
      | O => Err OutOfFuel
      | S f =>
          if c =? 92 then
            match t' with
            | [] => Err OtherError
            | _ => let p := span_digits t' in
                   match fst p with
                   | [] => Err OtherError
                   | _ => v <-- ref_result x (int_digits (fst p)) ;; r <-- expand_loop f x (snd p) ;; Ok (v ++ r)
                   end
            end
          else if c =? 60 then
            match t' with
            | [] => Err OtherError
            | _ => p <-- expand_text 1 t' ;; b <-- utf8_encode (removelast (fst p)) ;; r <-- expand_loop f x (snd p) ;; Ok (c_generic b :: r)
            end
          else Err OtherError
      end
  end.
Definition expand (x : top) (t : str) : res name := expand_loop (length t) x t.
(** ndn_regex_top_matcher.py 198-224: _convertSpecialChar *)
Definition special (c : Z) : bool :=
  existsb (Z.eqb c) [46; 91; 123; 125; 40; 41; 92; 42; 43; 63; 124; 94; 36].
Definition convertSpecialChar (t : str) : str := flat_map (fun c => if special c then [92; c] else [c]) t.
(** ndn_regex_top_matcher.py 112-130: fromName *)
Definition regex_of_name (n : name) (hasAnchor : bool) : str :=
  94 :: flat_map (fun c => 60 :: convertSpecialChar (c_toEscapedString c) ++ [62]) n ++ (if hasAnchor then [36] else []).
Definition fromName (n : name) (hasAnchor : bool) : res top := top_new (regex_of_name n hasAnchor).

(** ** InterestFilter *)
(** interest_filter.py 122-139: makePattern *)
Definition makePattern (t : str) : str :=
  let p := match t with 94 :: _ => t | _ => 94 :: t end in
  if last p 0 =? 36 then p else p ++ [36].
(** interest_filter.py 41-56, 58-94: the constructor and doesMatch *)
Definition filter_doesMatch (prefix : name) (regexFilter : option str) (n : name) : res bool :=
  if zlen n <? zlen prefix then Ok false
  else
    match regexFilter with
    | Some r =>
        if negb (n_match prefix n) then Ok false
        else x <-- top_new (makePattern r) ;; sub <-- n_getSubName n (zlen prefix) None ;; Ok (snd (top_match x sub))
    | None => Ok (n_match prefix n)
    end.
End Regex.
