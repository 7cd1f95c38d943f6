(** * Specification of the policy manager that reads a configuration *)
From Verif Require Import Base NameModel NameSpec UriModel BlobModel WireModel CtlModel CmdSpec HierModel HierSpec RegexModel InfoModel InfoSpec ConfModel ConfSpec CertModel CertSpec CpmModel.

(** ** The configuration in force *)
(** The last configuration that was loaded, and the environments of the events since then *)
Definition era (h : list (env * event)) : tree * list env :=
  fold_left (fun c x => match snd x with ELoad root _ => (root, [fst x]) | _ => (fst c, snd c ++ [fst x]) end) h (t_new, []).
(** the first subtree of a name *)
Definition first (k : str) (t : tree) : option tree := hd_error (select [k] t).
Definition anchors_of (cfg : tree) : list tree := select [w_validator; w_trust_anchor] cfg.
Definition rules_of (cfg : tree) : list tree := select [w_validator; w_rule] cfg.
(** a trust anchor of the type "any" *)
Definition trusts_any (cfg : tree) : Prop := exists a, In a (anchors_of cfg) /\ value w_type a = Some w_any.

(** the name and the signature *)
Definition kind (p : packet) : str := match p with PData _ => w_data | PInterest _ => w_interest end.
(** without the four components that make it a command Interest *)
Definition subject (p : packet) : name := match p with PData d => d_name d | PInterest n => firstn (length n - 4) n end.
Definition signed_with (p : packet) (s : signature) : Prop :=
  match p with
  | PData d => s = d_sig d
  | PInterest n => exists q ci cv, n = q ++ [ci; cv] /\ decodeSignatureInfoAndValue (c_value ci) (c_value cv) = Ok s
  end.
Definition public_key_signature (s : signature) : Prop := match s with SigRsa _ _ _ | SigEcdsa _ _ _ => True | _ => False end.

Section S.
Variable P : params.

(** ** Rules *)
(** The expression [e] matches the name [n]; then \i... of [t] expand to [out].  See C57 for what
    expressions mean. *)
Definition runs (e : str) (n : name) (x : top) : Prop := exists x0, top_new (p_groups P) e = Ok x0 /\ top_match (p_search P) x0 n = (x, true).
Definition accepts (e : str) (n : name) : Prop := exists x, runs e n x.
Definition yields (e : str) (n : name) (t : str) (out : name) : Prop := exists x, runs e n x /\ expand x t = Ok out.
Definition relation_word (r : relation) : str := match r with REqual => w_equal | RPrefix => w_prefix | RStrict => w_strict end.
Definition holds (word : option str) (a b : name) : Prop := exists r, word = Some (relation_word r) /\ related r a b.
(** a missing URI is the empty name *)
Definition uri_name (x : option str) (n : name) : Prop := match x with Some u => n_set u = Ok n | None => n = [] end.
Definition filter_holds (n : name) (f : tree) : Prop :=
  match value w_regex f with
  | Some e => accepts e n
  | None => exists q, uri_name (value w_name f) q /\ holds (value w_relation f) q n
  end.
(** Unlike in C63, all filters have to hold, and only the first checker counts. *)
Definition applies (p : packet) (r : tree) : Prop := value w_for r = Some (kind p) /\ Forall (filter_holds (subject p)) (select [w_filter] r).

(** a section that gives a certificate: a file or a base64 text *)
Definition cert_id (s : tree) (isPath : bool) (id : str) : Prop :=
  if isPath then value w_type s = Some w_file /\ value w_file_name s = Some id else value w_type s = Some w_base64 /\ value w_base64_string s = Some id.
Definition read_from (v : env) (isPath : bool) (id : str) (c : data) : Prop := (if isPath then e_file v id = Ok c else p_from64 P id = Ok c) /\ cert_checkFormat c = Ok tt.

Section Era.
Variable cfg : tree.
Variable envs : list env.

(** The fixed signer [f]: the key locator is its name, or the name of another version of it, as far as
    the text of the name can be read *)
Definition signer_named (f : data) (k : name) : Prop :=
  Forall2 same_comp (d_name f) k \/ exists q, n_set (n_toUri (removelast (d_name f)) false) = Ok q /\ under_values q k.
Inductive approves (n k : name) (ck : tree) : Prop :=
| Ap_fixed : forall s isPath id v b f, value w_type ck = Some w_fixed_signer -> first w_signer ck = Some s -> cert_id s isPath id ->
    In v envs -> read_from v b id f -> signer_named f k -> approves n k ck
| Ap_hier1 : forall x y, value w_type ck = Some w_hierarchical -> yields identityRegex k [92; 49] x -> yields identityRegex k [92; 50] y ->
    under_values (x ++ y) n -> approves n k ck
| Ap_hier2 : forall x, value w_type ck = Some w_hierarchical -> yields identityRegex2 k [92; 49] x -> under_values x n -> approves n k ck
| Ap_relation : forall l q, value w_type ck = Some w_customized -> first w_key_locator ck = Some l ->
    uri_name (value w_name l) q -> holds (value w_relation l) q k -> approves n k ck
| Ap_regex : forall l e, value w_type ck = Some w_customized -> first w_key_locator ck = Some l -> value w_relation l = None ->
    value w_regex l = Some e -> accepts e k -> approves n k ck
| Ap_hyper : forall l h kr ke pr pe a b, value w_type ck = Some w_customized -> first w_key_locator ck = Some l -> value w_relation l = None -> value w_regex l = None ->
    first w_hyper_relation l = Some h -> value w_k_regex h = Some kr -> value w_k_expand h = Some ke -> value w_p_regex h = Some pr -> value w_p_expand h = Some pe ->
    yields kr k ke a -> yields pr n pe b -> holds (value w_h_relation h) a b -> approves n k ck.
(** The first rule that applies has a first checker, which approves the key locator name [k]. *)
Definition rule_allows (p : packet) (k : name) : Prop :=
  exists l1 r l2 ck, rules_of cfg = l1 ++ r :: l2 /\ Forall (fun r' => ~ applies p r') l1 /\ applies p r /\ first w_checker r = Some ck /\ approves (subject p) k ck.

(** ** Certificates *)
(** The configuration gives the certificate: as a trust anchor, in a directory of them, or as the fixed
    signer of a rule *)
Definition anchor_gives (v : env) (c : data) : Prop :=
  exists a, In a (anchors_of cfg) /\
    ((exists isPath id, cert_id a isPath id /\ read_from v isPath id c) \/
     (exists dir files f, value w_type a = Some w_dir /\ value w_dir a = Some dir /\ e_list v dir = Ok files /\ In f files /\ read_from v true f c)).
Definition signer_gives (v : env) (c : data) : Prop :=
  exists r ck s isPath id, In r (rules_of cfg) /\ first w_checker r = Some ck /\ value w_type ck = Some w_fixed_signer /\ first w_signer ck = Some s /\ cert_id s isPath id /\ read_from v isPath id c.
Definition installed (c : data) : Prop := exists v, In v envs /\ (anchor_gives v c \/ signer_gives v c).
Definition unexpired (v : env) (c : data) : Prop := exists t, p_notAfter P c = Ok t /\ e_now v < t.

(** At the event [v] the packet is authentic: a rule allows its key locator name [k], which is a prefix
    of the name of a certificate [c] that is trusted and not expired, and the signature of the packet is
    right for the public key in it. *)
Inductive authentic : env -> packet -> Prop :=
| Authentic : forall v p s k c b key, In v envs -> signed_with p s -> public_key_signature s -> locates s k -> k <> [] ->
    rule_allows p k -> trusted c -> under_values k (d_name c) -> unexpired v c -> d_content c = Some key ->
    p_signed P p = Ok b -> p_verifyKey P s b key = Ok true -> authentic v p
with trusted : data -> Prop :=
| T_installed : forall c, installed c -> trusted c
| T_certified : forall v c, authentic v (PData c) -> cert_checkFormat c = Ok tt -> trusted c.
End Era.

(** ** The histories *)
(** Names have valid components, as the API makes them. *)
Definition good_name (n : name) : Prop := Forall c_valid n.
Definition good_event (x : env * event) : Prop :=
  (forall f d, e_file (fst x) f = Ok d -> good_name (d_name d)) /\ match snd x with EData _ d => good_name (d_name d) | _ => True end.
Definition good_history (h : list (env * event)) : Prop := (forall t d, p_from64 P t = Ok d -> good_name (d_name d)) /\ Forall good_event h.
End S.
Scheme authentic_ind2 := Minimality for authentic Sort Prop with trusted_ind2 := Minimality for trusted Sort Prop.

(** ** Callbacks *)
Definition asks (call : Z) (x : env * event) : bool := match snd x with EVerify c _ => c =? call | _ => false end.
Definition answers (call : Z) (a : act) : bool := match a with AVerified c _ | AFailed c _ => c =? call | _ => false end.
Definition sends (call : Z) (a : act) : bool := match a with AExpress c _ => c =? call | _ => false end.
Definition count {A : Type} (f : A -> bool) (l : list A) : Z := zlen (List.filter f l).

(** ** Command Interests *)
(** A command Interest with the key locator name [k] and the timestamp [ts] (see C23) *)
Definition stamp_of (p : packet) (k : name) (ts : Z) : Prop := match p with PData _ => False | PInterest n => command n k ts end.
(** A history that has just loaded a configuration, or an empty one *)
Definition begins (h : list (env * event)) : Prop := h = [] \/ exists h' v root err, h = h' ++ [(v, ELoad root err)].
Definition loads (x : env * event) : bool := match snd x with ELoad _ _ => true | _ => false end.
