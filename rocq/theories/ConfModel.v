(** * Model of the validator configuration: security/v2/validator_config/*.py and
    security/v2/validation_policy_config.py

    ValidatorConfigError is [OtherError].  Matcher objects (NdnRegexTopMatcher) keep results from
    one match to the next, so filters, checkers and rules are given back after each use.  Logging
    and the texts of the errors are not modelled.  The policy has no inner policy
    (validation_policy_config.py 125-127).  str.lower is modelled for the letters A to Z: no other
    character becomes one of the letters of the words it is compared with, except the Kelvin
    sign, and no word has a k. *)
From Verif Require Import Base TlvModel NameModel UriModel BlobModel WireModel CmdModel ValModel HierModel RegexModel InfoModel.
Local Open Scope res_scope.

(** the value of the words in the configuration, as texts *)
Definition w_equal : str := [101; 113; 117; 97; 108].
Definition w_prefix : str := [105; 115; 45; 112; 114; 101; 102; 105; 120; 45; 111; 102].
Definition w_strict : str := [105; 115; 45; 115; 116; 114; 105; 99; 116; 45; 112; 114; 101; 102; 105; 120; 45; 111; 102].
Definition w_type : str := [116; 121; 112; 101].
Definition w_name : str := [110; 97; 109; 101].
Definition w_relation : str := [114; 101; 108; 97; 116; 105; 111; 110].
Definition w_regex : str := [114; 101; 103; 101; 120].
Definition w_customized : str := [99; 117; 115; 116; 111; 109; 105; 122; 101; 100].
Definition w_hierarchical : str := [104; 105; 101; 114; 97; 114; 99; 104; 105; 99; 97; 108].
Definition w_key_locator : str := [107; 101; 121; 45; 108; 111; 99; 97; 116; 111; 114].
Definition w_hyper_relation : str := [104; 121; 112; 101; 114; 45] ++ w_relation.
Definition w_k_regex : str := [107; 45] ++ w_regex.
Definition w_p_regex : str := [112; 45] ++ w_regex.
Definition w_expand : str := [101; 120; 112; 97; 110; 100].
Definition w_k_expand : str := [107; 45] ++ w_expand.
Definition w_p_expand : str := [112; 45] ++ w_expand.
Definition w_h_relation : str := [104; 45] ++ w_relation.
Definition w_id : str := [105; 100].
Definition w_for : str := [102; 111; 114].
Definition w_data : str := [100; 97; 116; 97].
Definition w_interest : str := [105; 110; 116; 101; 114; 101; 115; 116].
Definition w_filter : str := [102; 105; 108; 116; 101; 114].
Definition w_checker : str := [99; 104; 101; 99; 107; 101; 114].
Definition w_rule : str := [114; 117; 108; 101].
Definition w_validator : str := [118; 97; 108; 105; 100; 97; 116; 111; 114].
Definition w_trust_anchor : str := [116; 114; 117; 115; 116; 45; 97; 110; 99; 104; 111; 114].
Definition w_file : str := [102; 105; 108; 101].
Definition w_file_name : str := w_file ++ [45] ++ w_name.
Definition w_base64 : str := [98; 97; 115; 101; 54; 52].
Definition w_base64_string : str := w_base64 ++ [45; 115; 116; 114; 105; 110; 103].
Definition w_dir : str := [100; 105; 114].
Definition w_any : str := [97; 110; 121].
Definition w_refresh : str := [114; 101; 102; 114; 101; 115; 104].
(** str.lower *)
Definition lower (t : str) : str := map (fun c => if (65 <=? c) && (c <=? 90) then c + 32 else c) t.

(** ** config_name_relation.py *)
Inductive relation : Type := REqual | RPrefix | RStrict.
(** config_name_relation.py 54-72: checkNameRelation *)
Definition checkNameRelation (r : relation) (a b : name) : bool :=
  match r with
  | REqual => n_equals a b
  | RPrefix => n_isPrefixOf a b
  | RStrict => n_isPrefixOf a b && (zlen a <? zlen b)
  end.
(** config_name_relation.py 75-92: getNameRelationFromString *)
Definition getNameRelation (t : str) : res relation :=
  if zlist_eqb (lower t) w_equal then Ok REqual
  else if zlist_eqb (lower t) w_prefix then Ok RPrefix
  else if zlist_eqb (lower t) w_strict then Ok RStrict
  else Err OtherError.

Section Conf.
Variable re_groups : str -> res nat.
Variable re_search : str -> str -> option (list (option str)).

(** [try: return X except: raise ValidatorConfigError] *)
Definition wrap {A : Type} (x : res A) : res A := match x with Ok a => Ok a | Err _ => Err OtherError end.
Definition expect {A : Type} (x : option A) : res A := match x with Some a => Ok a | None => Err OtherError end.

(** ** config_filter.py *)
Inductive filter : Type := FName (n : name) (r : relation) | FRegex (x : top).
(** config_filter.py 142-152, 174-183: matchName *)
Definition f_matchName (f : filter) (n : name) : filter * bool :=
  match f with
  | FName m r => (f, checkNameRelation r m n)
  | FRegex x => let (x', b) := top_match re_search x n in (FRegex x', b)
  end.
(** config_filter.py 34-54: match *)
Definition f_match (f : filter) (isForInterest : bool) (n : name) : filter * res bool :=
  if isForInterest then
    if zlen n <? 2 then (f, Ok false)
    else match n_getPrefix n (-2) with
         | Ok q => let (f', b) := f_matchName f q in (f', Ok b)
         | Err e => (f, Err e)
         end
  else let (f', b) := f_matchName f n in (f', Ok b).
(** config_filter.py 87-118: _createNameFilter *)
Definition createNameFilter (s : tree) : res filter :=
  match getFirstValue s w_name with
  | Some uri =>
      n <-- n_set uri ;;
      v <-- expect (getFirstValue s w_relation) ;;
      r <-- getNameRelation v ;;
      Ok (FName n r)
  | None =>
      match getFirstValue s w_regex with
      | Some t => x <-- wrap (top_new re_groups t) ;; Ok (FRegex x)
      | None => Err OtherError
      end
  end.
(** config_filter.py 57-73: create *)
Definition f_create (s : tree) : res filter :=
  t <-- expect (getFirstValue s w_type) ;;
  if zlist_eqb (lower t) w_name then createNameFilter s else Err OtherError.

(** ** config_checker.py *)
Inductive checker : Type :=
  | KName (n : name) (r : relation)
  | KRegex (x : top)
  | KHyper (p : top) (pe : str) (k : top) (ke : str) (r : relation).
(** The result of a check: true; false after state.fail; false without it *)
Inductive outcome : Type := Pass | Fail | Silent.
Definition of_bool (b : bool) : outcome := if b then Pass else Fail.
(** config_checker.py 230-249, 260-274, 294-330: checkNames *)
Definition k_checkNames (c : checker) (n k : name) : checker * res outcome :=
  match c with
  | KName m r => (c, identity <-- key_extractIdentity k ;; Ok (of_bool (checkNameRelation r m identity)))
  | KRegex x => let (x', b) := top_match re_search x k in (KRegex x', Ok (of_bool b))
  | KHyper p pe kx ke r =>
      let (p', b) := top_match re_search p n in
      if negb b then (KHyper p' pe kx ke r, Ok Fail)
      else
        let (kx', b) := top_match re_search kx k in
        (KHyper p' pe kx' ke r,
         if negb b then Ok Fail
         else keyExpansion <-- expand kx' ke ;; packetExpansion <-- expand p' pe ;; Ok (of_bool (checkNameRelation r keyExpansion packetExpansion)))
  end.
(** config_checker.py 36-62: check *)
Definition k_check (c : checker) (isForInterest : bool) (n k : name) : checker * res outcome :=
  if isForInterest then
    if zlen n <? 2 then (c, Ok Silent)
    else match n_getPrefix n (-2) with
         | Ok q => k_checkNames c q k
         | Err e => (c, Err e)
         end
  else k_checkNames c n k.
(** "^(<>*)$", "\1", "^(<>*)<KEY><>$" *)
Definition h_packet : str := [94; 40; 60; 62; 42; 41; 36].
Definition h_expand : str := [92; 49].
Definition h_key : str := [94; 40; 60; 62; 42; 41; 60; 75; 69; 89; 62; 60; 62; 36].
(** config_checker.py 284-292: the constructor of ConfigHyperRelationChecker *)
Definition hyper_new (p pe k ke : str) (r : relation) : res checker :=
  px <-- top_new re_groups p ;; kx <-- top_new re_groups k ;; Ok (KHyper px pe kx ke r).
(** config_checker.py 118-127: _createHierarchicalChecker *)
Definition hierarchical : res checker := hyper_new h_packet h_expand h_key h_expand RPrefix.
(** config_checker.py 147-217: _createKeyLocatorNameChecker *)
Definition createKeyLocatorName (s : tree) : res checker :=
  match getFirstValue s w_name with
  | Some uri =>
      n <-- n_set uri ;;
      v <-- expect (getFirstValue s w_relation) ;;
      r <-- getNameRelation v ;;
      Ok (KName n r)
  | None =>
      match getFirstValue s w_regex with
      | Some t => x <-- wrap (top_new re_groups t) ;; Ok (KRegex x)
      | None =>
          match t_getitem s w_hyper_relation with
          | [h] =>
              k <-- expect (getFirstValue h w_k_regex) ;;
              ke <-- expect (getFirstValue h w_k_expand) ;;
              hr <-- expect (getFirstValue h w_h_relation) ;;
              p <-- expect (getFirstValue h w_p_regex) ;;
              pe <-- expect (getFirstValue h w_p_expand) ;;
              r <-- getNameRelation hr ;;
              wrap (hyper_new p pe k ke r)
          | _ => Err OtherError
          end
      end
  end.
(** config_checker.py 130-144: _createKeyLocatorChecker *)
Definition createKeyLocator (s : tree) : res checker :=
  t <-- expect (getFirstValue s w_type) ;;
  if zlist_eqb (lower t) w_name then createKeyLocatorName s else Err OtherError.
(** config_checker.py 104-115: _createCustomizedChecker *)
Definition customized (s : tree) : res checker :=
  match t_getitem s w_key_locator with [l] => createKeyLocator l | _ => Err OtherError end.
(** config_checker.py 65-84: create *)
Definition k_create (s : tree) : res checker :=
  t <-- expect (getFirstValue s w_type) ;;
  if zlist_eqb (lower t) w_customized then customized s
  else if zlist_eqb (lower t) w_hierarchical then hierarchical
  else Err OtherError.

(** ** config_rule.py *)
Record rule : Type := Rule { r_id : str; r_interest : bool; r_filters : list filter; r_checkers : list checker }.
(** config_rule.py 105-111 *)
Fixpoint match_any (l : list filter) (isForInterest : bool) (n : name) : list filter * res bool :=
  match l with
  | [] => ([], Ok false)
  | f :: l' =>
      match f_match f isForInterest n with
      | (f', Ok true) => (f' :: l', Ok true)
      | (f', Ok false) => let (l2, b) := match_any l' isForInterest n in (f' :: l2, b)
      | (f', Err e) => (f' :: l', Err e)
      end
  end.
(** config_rule.py 79-111: match *)
Definition r_match (r : rule) (isForInterest : bool) (n : name) : rule * res bool :=
  if negb (Bool.eqb isForInterest (r_interest r)) then (r, Err OtherError)
  else
    match r_filters r with
    | [] => (r, Ok true)
    | l => let (l', b) := match_any l isForInterest n in (Rule (r_id r) (r_interest r) l' (r_checkers r), b)
    end.
(** config_rule.py 140-148; [o] is hasPendingResult *)
Fixpoint check_all (l : list checker) (isForInterest : bool) (n k : name) (o : outcome) : list checker * res outcome :=
  match l with
  | [] => ([], Ok o)
  | c :: l' =>
      match k_check c isForInterest n k with
      | (c', Ok Pass) => let (l2, b) := check_all l' isForInterest n k Pass in (c' :: l2, b)
      | (c', Ok o) => (c' :: l', Ok o)
      | (c', Err e) => (c' :: l', Err e)
      end
  end.
(** config_rule.py 113-148: check *)
Definition r_check (r : rule) (isForInterest : bool) (n k : name) : rule * res outcome :=
  if negb (Bool.eqb isForInterest (r_interest r)) then (r, Err OtherError)
  else let (l', o) := check_all (r_checkers r) isForInterest n k Silent in (Rule (r_id r) (r_interest r) (r_filters r) l', o).
Fixpoint map_res {A B : Type} (f : A -> res B) (l : list A) : res (list B) :=
  match l with [] => Ok [] | a :: l' => b <-- f a ;; r <-- map_res f l' ;; Ok (b :: r) end.
(** config_rule.py 151-195: create *)
Definition r_create (s : tree) : res rule :=
  id <-- expect (getFirstValue s w_id) ;;
  usage <-- expect (getFirstValue s w_for) ;;
  isForInterest <-- (if zlist_eqb (lower usage) w_data then Ok false else if zlist_eqb (lower usage) w_interest then Ok true else Err OtherError) ;;
  fs <-- map_res f_create (t_getitem s w_filter) ;;
  cs <-- map_res k_create (t_getitem s w_checker) ;;
  match cs with [] => Err OtherError | _ => Ok (Rule id isForInterest fs cs) end.

(** ** validation_policy_config.py *)
Record policy : Type := Policy { c_bypass : bool; c_configured : bool; c_data : list rule; c_interest : list rule }.
Definition c_new : policy := Policy false false [] [].
(** validation_policy_config.py 141-151, 158-168: the first rule that matches decides *)
Fixpoint apply_rules (l : list rule) (isForInterest : bool) (n k : name) : list rule * res outcome :=
  match l with
  | [] => ([], Ok Fail)
  | r :: l' =>
      match r_match r isForInterest n with
      | (r', Ok true) => let (r2, o) := r_check r' isForInterest n k in (r2 :: l', o)
      | (r', Ok false) => let (l2, o) := apply_rules l' isForInterest n k in (r' :: l2, o)
      | (r', Err e) => (r' :: l', Err e)
      end
  end.
Definition of_outcome (cbp : bool) (k : name) (o : res outcome) : verdict interest :=
  match o with
  | Ok Pass => VContinue (Some (i_ofName cbp k))
  | Ok Fail => VFail
  | Ok Silent => VNothing
  | Err e => VRaise e
  end.
(** validation_policy_config.py 117-171: checkPolicy *)
Definition conf_check (cbp : bool) (c : policy) (p : packet) : policy * verdict interest :=
  if c_bypass c then (c, VContinue None)
  else
    match p_locator p with
    | None => (c, VFail)
    | Some k =>
        match p with
        | PData _ => let (l, o) := apply_rules (c_data c) false (p_name p) k in (Policy (c_bypass c) (c_configured c) l (c_interest c), of_outcome cbp k o)
        | PInterest _ => let (l, o) := apply_rules (c_interest c) true (p_name p) k in (Policy (c_bypass c) (c_configured c) (c_data c) l, of_outcome cbp k o)
        end
    end.
(** after other packets *)
Definition conf_warm (cbp : bool) (c : policy) (ps : list packet) : policy := fold_left (fun c p => fst (conf_check cbp c p)) ps c.

(** ** Loading *)
(** re.match('(\\d+)([hms])') for decimal digits 0 to 9: the number and the letter *)
Definition refresh_parse (t : str) : option (str * Z) :=
  match span_digits t with
  | (d :: ds, c :: _) => if (c =? 104) || (c =? 109) || (c =? 115) then Some (d :: ds, c) else None
  | _ => None
  end.
(** validation_policy_config.py 228-257: _getRefreshPeriod, in milliseconds; the product of floats
    is exact below 2^53 *)
Definition getRefreshPeriod (s : tree) : Z :=
  match getFirstValue s w_refresh with
  | None => 100000000000000
  | Some t =>
      let seconds :=
        match refresh_parse t with
        | Some (d, c) => let n := int_digits d in if negb (c =? 115) then if negb (c =? 109) then n * 60 * 60 else n * 60 else n
        | None => 0
        end in
      if seconds =? 0 then 3600 * 1000 else seconds * 1000
  end.
(** what the policy asks of the validator *)
Variable C : Type.
Inductive action : Type :=
  | AResetAnchors | AResetVerified
  | ALoad (path : str) (refresh : Z) (isDirectory : bool)
  | ACert (c : C).
Variable b64decode : str -> res bytes.
Variable wireDecode : bytes -> res C.
(** the exception of validator.loadAnchor, if any *)
Variable loading : action -> option exn.
Definition perform (a : action) : list action * option exn := ([a], loading a).
(** validation_policy_config.py 173-225: _processConfigTrustAnchor: whether everything is to be
    accepted from now on, the actions, the exception *)
Definition process_anchor (s : tree) : bool * list action * option exn :=
  match getFirstValue s w_type with
  | None => (false, [], Some OtherError)
  | Some t =>
      if zlist_eqb (lower t) w_file then
        match getFirstValue s w_file_name with
        | None => (false, [], Some OtherError)
        | Some f => let (a, e) := perform (ALoad f (getRefreshPeriod s) false) in (false, a, e)
        end
      else if zlist_eqb (lower t) w_base64 then
        match getFirstValue s w_base64_string with
        | None => (false, [], Some OtherError)
        | Some x =>
            match b64decode x with
            | Err e => (false, [], Some e)
            | Ok b => match wireDecode b with
                      | Err _ => (false, [], Some OtherError)
                      | Ok c => let (a, e) := perform (ACert c) in (false, a, e)
                      end
            end
        end
      else if zlist_eqb (lower t) w_dir then
        match getFirstValue s w_dir with
        | None => (false, [], Some OtherError)
        | Some d => let (a, e) := perform (ALoad d (getRefreshPeriod s) true) in (false, a, e)
        end
      else if zlist_eqb (lower t) w_any then (true, [], None)
      else (false, [], Some OtherError)
  end.
(** validation_policy_config.py 105-110 *)
Fixpoint load_rules (l : list tree) (c : policy) : policy * option exn :=
  match l with
  | [] => (c, None)
  | s :: l' =>
      match r_create s with
      | Err e => (c, Some e)
      | Ok r =>
          load_rules l' (if r_interest r then Policy (c_bypass c) (c_configured c) (c_data c) (c_interest c ++ [r])
                         else Policy (c_bypass c) (c_configured c) (c_data c ++ [r]) (c_interest c))
      end
  end.
(** validation_policy_config.py 114-115 *)
Fixpoint load_anchors (l : list tree) (c : policy) : policy * list action * option exn :=
  match l with
  | [] => (c, [], None)
  | s :: l' =>
      match process_anchor s with
      | (b, a, Some e) => (c, a, Some e)
      | (b, a, None) =>
          let '(c', a', e) := load_anchors l' (if b then Policy true (c_configured c) (c_data c) (c_interest c) else c) in
          (c', a ++ a', e)
      end
  end.
(** validation_policy_config.py 53-115: load of a BoostInfoTree.  The policy, what it did to the
    validator, the exception. *)
Definition conf_load (c : policy) (root : tree) : policy * list action * option exn :=
  let (c1, a1) := if c_configured c then (Policy false true [] [], [AResetAnchors; AResetVerified]) else (Policy (c_bypass c) true (c_data c) (c_interest c), []) in
  match t_getitem root w_validator with
  | [v] =>
      match load_rules (t_getitem v w_rule) c1 with
      | (c2, Some e) => (c2, a1, Some e)
      | (c2, None) => let '(c3, a3, e) := load_anchors (t_getitem v w_trust_anchor) c2 in (c3, a1 ++ a3, e)
      end
  | _ => (c1, a1, Some OtherError)
  end.
(** a new policy after some calls of load and of checkPolicy *)
Inductive conf_op : Type := CLoad (root : tree) | CCheck (p : packet).
Definition conf_do (cbp : bool) (c : policy) (o : conf_op) : policy := match o with CLoad t => fst (fst (conf_load c t)) | CCheck p => fst (conf_check cbp c p) end.
Definition conf_run (cbp : bool) (h : list conf_op) : policy := fold_left (conf_do cbp) h c_new.

(** ** In a validator *)
(** As [hier_pol]; [earlier]: the packets that were checked before *)
Definition conf_pol (cbp : bool) (c : policy) (earlier : list packet) (p : packet) : verdict vreq :=
  match snd (conf_check cbp (conf_warm cbp c earlier) p) with
  | VFail => VFail
  | VRaise e => VRaise e
  | VNothing => VNothing
  | VContinue None => VContinue None
  | VContinue (Some r) => match Bool.bool_dec (n_validb (i_name r)) true with left h => VContinue (Some (exist _ r h)) | right _ => VFail end
  end.
(** the events of a Validator (ValModel.v) with a policy that was loaded.  [earlier k p]: any
    packets the policy has seen when it is asked about [p] in event [k]. *)
Definition conf_val sha256 period verify express files online cbp maxDepth (c : policy) (earlier : nat -> packet -> list packet) (h : list (@event packet vcert)) : @world packet vcert vreq :=
  run vname (vperiod period) vcheck vreqname (vmatches sha256) (vver verify) (vverc verify)
    (fun k p => conf_pol cbp c (earlier k p) p) (fun k c' => conf_pol cbp c (earlier k (PData (proj1_sig c'))) (PData (proj1_sig c')))
    express files online maxDepth h.
End Conf.
