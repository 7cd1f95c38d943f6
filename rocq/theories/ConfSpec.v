(** * Specification of the validator configuration *)
From Verif Require Import Base TlvModel NameModel NameSpec UriModel BlobModel WireModel ValModel HierModel HierSpec RegexSpec InfoModel InfoSpec ConfModel.

(** ** Names *)
Definition same_comp (c d : comp) : Prop := c_value c = c_value d /\ c_type c = c_type d /\ (c_type c = CT_OTHER -> c_other c = c_other d).
(** "equal" compares the types of the components; the other two only their values *)
Definition related (r : relation) (a b : name) : Prop :=
  match r with
  | REqual => Forall2 same_comp a b
  | RPrefix => prefix (vals a) (vals b)
  | RStrict => prefix (vals a) (vals b) /\ vals a <> vals b
  end.
(** [k] is the name of a key of [identity] *)
Definition key_of (identity k : name) : Prop := identity <> [] /\ exists c kid, k = identity ++ [c; kid] /\ same_comp c key_comp.

(** ** What a configuration says *)
Record regex : Type := Regex { x_start : bool; x_items : list item; x_stop : bool }.
Inductive sfilter : Type := SName (n : name) (r : relation) | SRegex (x : regex).
Inductive schecker : Type :=
  | CName (n : name) (r : relation)
  | CRegex (x : regex)
  | CHyper (p : regex) (pe : str) (k : regex) (ke : str) (r : relation).
Record srule : Type := SRule { s_interest : bool; s_filters : list sfilter; s_checkers : list schecker }.

Section S.
Variable re_groups : str -> res nat.
Variable re_search : str -> str -> option (list (option str)).
Definition x_matches (x : regex) (n : name) : Prop := matches re_search (x_start x) (x_items x) (x_stop x) n.
Definition f_holds (n : name) (f : sfilter) : Prop := match f with SName m r => related r m n | SRegex x => x_matches x n end.
(** what the references of an expression stand for when it matches [n]: \0 the name; a group that
    took part, what it matched; another one, anything *)
Definition captured (x : regex) (n : name) (ref : Z -> name) : Prop :=
  exists u v w g, n = u ++ v ++ w /\ (x_start x = true -> u = []) /\ (x_stop x = true -> w = []) /\ caps_of re_groups re_search 0 (x_items x) v g /\
    ref 0 = n /\ forall j c, In (j, c) g -> ref (Z.of_nat j + 1) = c.
Definition expansion (ref : Z -> name) (ps : list piece) : name := flat_map (fun p => match p with Ref i => ref (decimal i) | Txt t => [text_comp (Some t)] end) ps.
Definition expands (ref : Z -> name) (t : str) (out : name) : Prop := exists ps, Forall p_ok ps /\ t = flat_map p_text ps /\ out = expansion ref ps.
Definition passes (n k : name) (c : schecker) : Prop :=
  match c with
  | CName m r => exists identity, key_of identity k /\ related r m identity
  | CRegex x => x_matches x k
  | CHyper p pe kx ke r => exists rp rk np nk, captured p n rp /\ captured kx k rk /\ expands rp pe np /\ expands rk ke nk /\ related r nk np
  end.
Definition refuses (n k : name) (c : schecker) : Prop :=
  match c with
  | CName m r => exists identity, key_of identity k /\ ~ related r m identity
  | CRegex x => ~ x_matches x k
  | CHyper p pe kx ke r => ~ x_matches p n \/ ~ x_matches kx k \/ exists rp rk np nk, captured p n rp /\ captured kx k rk /\ expands rp pe np /\ expands rk ke nk /\ ~ related r nk np
  end.
(** the only checker that can raise: the name relation, for a key locator that is not a key name *)
Definition chokes (k : name) (c : schecker) : Prop := match c with CName _ _ => forall identity, ~ key_of identity k | _ => False end.
Definition rule_matches (n : name) (r : srule) : Prop := s_filters r = [] \/ Exists (f_holds n) (s_filters r).
Inductive decision : Type := Allow | Refuse | Choke.
Definition checked (cs : list schecker) (n k : name) (d : decision) : Prop :=
  match d with
  | Allow => Forall (passes n k) cs
  | Refuse => exists a c b, cs = a ++ c :: b /\ Forall (passes n k) a /\ refuses n k c
  | Choke => exists a c b, cs = a ++ c :: b /\ Forall (passes n k) a /\ chokes k c
  end.
(** the first rule that matches decides; without one the packet is refused *)
Definition decided (rules : list srule) (n k : name) (d : decision) : Prop :=
  (d = Refuse /\ Forall (fun r => ~ rule_matches n r) rules) \/
  exists a r b, rules = a ++ r :: b /\ Forall (fun r => ~ rule_matches n r) a /\ rule_matches n r /\ checked (s_checkers r) n k d.
(** The rules for Data packets, or for Interests; an Interest is examined without the two
    components of its signature *)
Definition is_interest (p : packet) : bool := match p with PData _ => false | PInterest _ => true end.
Definition rules_for (cfg : list srule) (p : packet) : list srule := List.filter (fun r => Bool.eqb (s_interest r) (is_interest p)) cfg.
Definition examined (p : packet) : name := if is_interest p then without2 (p_name p) else p_name p.
(** the configuration allows the packet to be signed with the key locator [k] *)
Definition allowed (cfg : list srule) (p : packet) (k : name) : Prop :=
  exists r, In r cfg /\ s_interest r = is_interest p /\ rule_matches (examined p) r /\ s_checkers r <> [] /\ Forall (passes (examined p) k) (s_checkers r).

(** ** How a configuration is written *)
Definition value (k : str) (t : tree) : option str := match select [k] t with s :: _ => t_value s | [] => None end.
(** the same letters, where a capital letter of the text counts as the small one *)
Definition reads_as (v word : str) : Prop := Forall2 (fun c w => if (65 <=? c) && (c <=? 90) then w = c - 65 + 97 else w = c) v word.
Definition says (k word : str) (t : tree) : Prop := exists v, value k t = Some v /\ reads_as v word.
Definition regex_of (t : str) (x : regex) : Prop :=
  wf re_groups (x_items x) /\ (x_start x = true \/ x_items x <> []) /\ t = top_text (x_start x) (x_items x) (x_stop x).
Definition relation_of (k : str) (t : tree) (r : relation) : Prop := says k (match r with REqual => w_equal | RPrefix => w_prefix | RStrict => w_strict end) t.
Definition name_of (t : tree) (n : name) (r : relation) : Prop := exists uri, value w_name t = Some uri /\ n_set uri = Ok n /\ relation_of w_relation t r.
Definition regex_in (k : str) (t : tree) (x : regex) : Prop := exists e, value k t = Some e /\ regex_of e x.
Definition reads_filter (t : tree) (f : sfilter) : Prop :=
  says w_type w_name t /\
  match f with
  | SName n r => name_of t n r
  | SRegex x => value w_name t = None /\ regex_in w_regex t x
  end.
(** a hierarchical checker: the identity of the key locator is a prefix of the name *)
Definition hier_checker : schecker :=
  CHyper (Regex true [Group [One [] QStar] QOne] true) [92; 49] (Regex true [Group [One [] QStar] QOne; One KEYv QOne; One [] QOne] true) [92; 49] RPrefix.
Definition reads_checker (t : tree) (c : schecker) : Prop :=
  (says w_type w_hierarchical t /\ c = hier_checker) \/
  (says w_type w_customized t /\ exists l, select [w_key_locator] t = [l] /\ says w_type w_name l /\
    match c with
    | CName n r => name_of l n r
    | CRegex x => value w_name l = None /\ regex_in w_regex l x
    | CHyper p pe k ke r => value w_name l = None /\ value w_regex l = None /\ exists h, select [w_hyper_relation] l = [h] /\
        regex_in w_p_regex h p /\ value w_p_expand h = Some pe /\ regex_in w_k_regex h k /\ value w_k_expand h = Some ke /\ relation_of w_h_relation h r
    end).
Definition reads_rule (t : tree) (r : srule) : Prop :=
  value w_id t <> None /\ says w_for (if s_interest r then w_interest else w_data) t /\
  Forall2 reads_filter (select [w_filter] t) (s_filters r) /\ Forall2 reads_checker (select [w_checker] t) (s_checkers r) /\ s_checkers r <> [].
(** The rules in the file *)
Definition reads (t : tree) (cfg : list srule) : Prop := exists v, select [w_validator] t = [v] /\ Forall2 reads_rule (select [w_rule] v) cfg.

(** Everything is trusted *)
Definition trusts_all (t : tree) : Prop := exists v, select [w_validator] t = [v] /\ Exists (says w_type w_any) (select [w_trust_anchor] v).

(** ** Ordinary configurations *)
(** the regular expressions of Python: ".*", letters and the empty one *)
Definition re_plain : Prop := re_any re_groups re_search /\ re_literal re_groups re_search /\ re_groups [] = Ok 0%nat.
(** of every expression: no group that has to be repeated matches the empty name; of expansions:
    pieces which the constructor takes, with references that exist, not ending in a text *)
Definition x_strict (x : regex) : Prop := strict re_search (x_items x).
Definition e_good (x : regex) (t : str) : Prop :=
  exists ps, Forall p_ok ps /\ ~ ends_in_text ps /\ t = flat_map p_text ps /\ forall i, In (Ref i) ps -> decimal i <= Z.of_nat (nrefs re_groups (x_items x)).
Definition f_ordinary (f : sfilter) : Prop := match f with SName _ _ => True | SRegex x => x_strict x end.
Definition c_ordinary (c : schecker) : Prop :=
  match c with CName _ _ => True | CRegex x => x_strict x | CHyper p pe k ke _ => x_strict p /\ x_strict k /\ e_good p pe /\ e_good k ke end.
Definition ordinary (cfg : list srule) : Prop := Forall (fun r => Forall f_ordinary (s_filters r) /\ Forall c_ordinary (s_checkers r)) cfg.
(** the rule says the same whatever the references of groups that took no part are *)
Definition definite (c : schecker) : Prop := forall n k, ~ (passes n k c /\ refuses n k c).
End S.

(** ** Chains *)
(** The name of the certificate [c] is what the key locator asks for *)
Definition names_cert (k c : name) : Prop := prefix (vals k) (vals c) \/ exists digest, vals k = vals c ++ [digest].
Definition conf_one (allow : packet -> name -> Prop) (verify : packet -> data -> res bool) (a : data) (p : packet) : Prop :=
  verify p a = Ok true /\ exists k, located p k /\ names_cert k (d_name a) /\ allow p k.
Fixpoint conf_chain (allow : packet -> name -> Prop) (verify : packet -> data -> res bool) (a : data) (chain : list data) (p : packet) : Prop :=
  match chain with
  | [] => conf_one allow verify a p
  | c :: chain' => conf_one allow verify a (PData c) /\ conf_chain allow verify c chain' p
  end.

(** ** Trust anchors *)
Definition digits_ok (d : str) : Prop := d <> [] /\ Forall (fun c => 48 <= c <= 57) d.
(** "10s", "5m", "2h": milliseconds; no value: never; anything else and zero: one hour *)
Inductive refresh_text : option str -> Z -> Prop :=
  | Rf_never : refresh_text None 100000000000000
  | Rf_unit : forall d c factor rest, digits_ok d -> decimal d <> 0 -> (c, factor) = (115, 1) \/ (c, factor) = (109, 60) \/ (c, factor) = (104, 3600) -> refresh_text (Some (d ++ c :: rest)) (decimal d * factor * 1000)
  | Rf_hour : forall t, (forall d c rest, digits_ok d -> decimal d <> 0 -> c = 115 \/ c = 109 \/ c = 104 -> t <> d ++ c :: rest) -> refresh_text (Some t) 3600000.
Section A.
Variable C : Type.
Variable b64decode : str -> res bytes.
Variable wireDecode : bytes -> res C.
(** a trust-anchor section: the anchor, or that everything is trusted *)
Definition reads_anchor (t : tree) (a : option (action C)) : Prop :=
  match a with
  | Some (ALoad _ f period isDir) =>
      (if isDir then says w_type w_dir t /\ value w_dir t = Some f else says w_type w_file t /\ value w_file_name t = Some f) /\ refresh_text (value w_refresh t) period
  | Some (ACert _ c) => says w_type w_base64 t /\ exists x b, value w_base64_string t = Some x /\ b64decode x = Ok b /\ wireDecode b = Ok c
  | None => says w_type w_any t
  | _ => False
  end.
Definition reads_anchors (t : tree) (l : list (option (action C))) : Prop := exists v, select [w_validator] t = [v] /\ Forall2 reads_anchor (select [w_trust_anchor] v) l.
End A.
