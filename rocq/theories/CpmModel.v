(** * Model of ConfigPolicyManager and of KeyChain.verifyData and verifyInterest.

    python/pyndn/security/policy/config_policy_manager.py 61-1025 with a CertificateCacheV2 (security v2),
    python/pyndn/security/key_chain.py 1149-1272 and 1750-1783, python/pyndn/security/policy/
    policy_manager.py 129-160.  The parts for security v1 (a CertificateCache) are not modelled.

    One event is one call of the API, or one callback of the Face.  All that happens in it happens at one
    time, with one state of the file system ([env]).  The regular expressions of Python, the decoding of
    a certificate, the encoding of the packet and the RSA and ECDSA computations are functions in
    [params]; all of them may raise.  The callbacks of the application do not call the library; what they
    raise is caught by the library and is not modelled.  The texts of the failure reasons are left out,
    except that making one of them raises (779).  The interpreter is Python 3. *)
From Verif Require Import Base NameModel UriModel BlobModel DictModel WireModel CtlModel MatchModel CmdModel HierModel RegexModel InfoModel ConfModel CertModel.
Local Open Scope res_scope.

(** ** The words of the configuration *)
Definition w_fixed_signer : str := [102; 105; 120; 101; 100; 45; 115; 105; 103; 110; 101; 114].
Definition w_signer : str := [115; 105; 103; 110; 101; 114].
Definition w_validator_anchor : str := w_validator ++ [47] ++ w_trust_anchor.
Definition w_validator_rule : str := w_validator ++ [47] ++ w_rule.
(** config_policy_manager.py 310: "^([^<KEY>]*)<KEY>(<>*)<ksk-.+><ID-CERT>" *)
Definition identityRegex : str :=
  [94; 40; 91; 94; 60; 75; 69; 89; 62; 93; 42; 41; 60; 75; 69; 89; 62; 40; 60; 62; 42; 41; 60; 107; 115; 107; 45; 46; 43; 62; 60; 73; 68; 45; 67; 69; 82; 84; 62].
(** config_policy_manager.py 325: "^(<>*)<KEY><>$" *)
Definition identityRegex2 : str := [94; 40; 60; 62; 42; 41; 60; 75; 69; 89; 62; 60; 62; 36].

(** ** What the code depends on *)
Record params : Type := Params {
  p_groups : str -> res nat;                                   (* re.compile: the number of groups *)
  p_search : str -> str -> option (list (option str));         (* re.search *)
  p_notAfter : data -> res Z;                                  (* getValidityPeriod().getNotAfter() *)
  p_from64 : str -> res data;                                  (* b64decode, then Data.wireDecode *)
  p_signed : packet -> res bytes;                              (* wireEncode().toSignedBytes() *)
  p_verifyKey : signature -> bytes -> bytes -> res bool;       (* VerificationHelpers.verifySignature: the bytes, the public key *)
  p_maxDepth : Z; p_grace : Z; p_ttl : Z; p_maxKeys : Z;       (* config_policy_manager.py 90-92 *)
  p_lifetime : Z }.                                            (* of both certificate caches *)
(** The time, the certificate files (their Data packet after base64 and wireDecode), the full paths of
    the files in a directory, and what Face.expressInterest raises for an Interest with this name *)
Record env : Type := Env { e_now : Z; e_file : str -> res data; e_list : str -> res (list str); e_express : name -> option exn }.

(** ** State *)
(** The onVerified callback: the one of the application for the call number [call], or the closure
    onCertificateDownloadComplete of checkVerificationPolicy(p, step, k): 689-716 *)
Inductive cont : Type := KApp (call : Z) | KCert (p : packet) (step : Z) (k : cont).
(** onValidationFailed is the same function at every step *)
Fixpoint root_call (k : cont) : Z := match k with KApp c => c | KCert _ _ k' => root_call k' end.
(** What is called: expressInterest (for which call of the application), onVerified,
    onValidationFailed; [ALogged]: an exception in a callback was caught and logged *)
Inductive act : Type := AExpress (call : Z) (n : name) | AVerified (call : Z) (p : packet) | AFailed (call : Z) (p : packet) | ALogged (call : Z).
(** validation_request.py: the Interest name, onVerified, stepCount; retry is always 2 *)
Record request : Type := Request { q_name : name; q_cont : cont; q_step : Z }.
(** config_policy_manager.py 995-998: certificates (as URIs), nextRefresh, refreshPeriod *)
Record dirinfo : Type := DirInfo { di_certs : list str; di_next : Z; di_period : Z }.
(** config_policy_manager.py 119-140, 906-913 *)
Record mgr : Type := Mgr {
  m_cache : cache data; m_fixed : dict str str; m_ts : dict str Z; m_requires : bool; m_config : tree;
  m_rcache : cache data; m_dirs : dict str dirinfo; m_outs : list act }.

(** A method is a function of the state that changes it and returns or raises. *)
Definition pm (A : Type) : Type := mgr -> mgr * res A.
Definition pret {A} (a : A) : pm A := fun m => (m, Ok a).
Definition pbind {A B} (x : pm A) (k : A -> pm B) : pm B := fun m => match x m with (m', Ok a) => k a m' | (m', Err e) => (m', Err e) end.
Definition plift {A} (r : res A) : pm A := fun m => (m, r).
Notation "x <~ m ;; k" := (pbind m (fun x => k)) (at level 61, m at next level, right associativity).
Notation "m ;;; k" := (pbind m (fun _ => k)) (at level 61, right associativity).
Definition pget {A} (f : mgr -> A) : pm A := fun m => (m, Ok (f m)).
Definition emit (a : act) : pm unit := fun m => (Mgr (m_cache m) (m_fixed m) (m_ts m) (m_requires m) (m_config m) (m_rcache m) (m_dirs m) (m_outs m ++ [a]), Ok tt).
Definition put_cache (c : cache data) : pm unit := fun m => (Mgr c (m_fixed m) (m_ts m) (m_requires m) (m_config m) (m_rcache m) (m_dirs m) (m_outs m), Ok tt).
Definition put_fixed (d : dict str str) : pm unit := fun m => (Mgr (m_cache m) d (m_ts m) (m_requires m) (m_config m) (m_rcache m) (m_dirs m) (m_outs m), Ok tt).
Definition put_ts (d : dict str Z) : pm unit := fun m => (Mgr (m_cache m) (m_fixed m) d (m_requires m) (m_config m) (m_rcache m) (m_dirs m) (m_outs m), Ok tt).
Definition put_requires (b : bool) : pm unit := fun m => (Mgr (m_cache m) (m_fixed m) (m_ts m) b (m_config m) (m_rcache m) (m_dirs m) (m_outs m), Ok tt).
Definition put_config (t : tree) : pm unit := fun m => (Mgr (m_cache m) (m_fixed m) (m_ts m) (m_requires m) t (m_rcache m) (m_dirs m) (m_outs m), Ok tt).
Definition put_rcache (c : cache data) : pm unit := fun m => (Mgr (m_cache m) (m_fixed m) (m_ts m) (m_requires m) (m_config m) c (m_dirs m) (m_outs m), Ok tt).
Definition put_dirs (d : dict str dirinfo) : pm unit := fun m => (Mgr (m_cache m) (m_fixed m) (m_ts m) (m_requires m) (m_config m) (m_rcache m) d (m_outs m), Ok tt).
(** try: x except: logging.exception(...) *)
Definition logged (call : Z) (x : pm unit) : pm unit := fun m => match x m with (m', Ok u) => (m', Ok u) | (m', Err _) => emit (ALogged call) m' end.

Section Cpm.
Variable P : params.
Section Env.
Variable v : env.

(** ** The certificate caches *)
(** certificate_cache_v2.py 112-127: find, of _certificateCacheV2 and of the one of the refresh manager (953-963) *)
Definition cfind (n : name) : pm (option data) := fun m =>
  match cc_find_name (m_cache m) (e_now v) n with Ok (c, r) => (put_cache c ;;; pret r) m | Err e => (m, Err e) end.
Definition rfind (n : name) : pm (option data) := fun m =>
  match cc_find_name (m_rcache m) (e_now v) n with Ok (c, r) => (put_rcache c ;;; pret r) m | Err e => (m, Err e) end.
(** certificate_cache_v2.py 58-97: insert *)
Definition cinsert (d : data) : pm unit := fun m =>
  let (c, r) := cc_insert d_name (p_notAfter P) cert_checkFormat (m_cache m) (e_now v) d in (put_cache c ;;; plift r) m.
Definition rinsert (d : data) : pm unit := fun m =>
  let (c, r) := cc_insert d_name (p_notAfter P) cert_checkFormat (m_rcache m) (e_now v) d in (put_rcache c ;;; plift r) m.
(** certificate_v2.py 202-216: wireDecode checks the format *)
Definition as_cert (r : res data) : res data := d <-- r ;; _ <-- cert_checkFormat d ;; Ok d.
(** config_policy_manager.py 928-939: loadCertificateV2FromFile *)
Definition load_file (f : str) : res data := as_cert (e_file v f).

(** config_policy_manager.py 448-479: _lookupCertificateV2.  A missing text (None) is no path and no base64. *)
Definition lookupCertificate (certID : option str) (isPath : bool) : pm (option data) :=
  match certID with
  | None => plift (Err TypeError)
  | Some id =>
      fixed <~ pget m_fixed ;;
      match dget zlist_eqb fixed id with
      | Some certUri => n <~ plift (n_set certUri) ;; cfind n
      | None =>
          d <~ plift (if isPath then load_file id else as_cert (p_from64 P id)) ;;
          q <~ plift (n_slice (d_name d) None (Some (-1))) ;;
          put_fixed (dset zlist_eqb fixed id (n_toUri q false)) ;;;
          cinsert d ;;;
          pret (Some d)
      end
  end.

(** ** TrustAnchorRefreshManager *)
(** config_policy_manager.py 967-993: the loop of addDirectory over the files; the URIs of the key names *)
Fixpoint addFiles (files : list str) (names : list str) : pm (list str) :=
  match files with
  | [] => pret names
  | f :: fs =>
      match load_file f with
      | Err _ => addFiles fs names
      | Ok d =>
          k <~ plift (cert_extractKeyName (d_name d)) ;;
          rinsert d ;;;
          addFiles fs (names ++ [n_toUri k false])
      end
  end.
(** config_policy_manager.py 966-998: addDirectory.  os.listdir(None) is the current directory, but
    os.path.join(None, f) raises; no files in the current directory are not modelled. *)
Definition addDirectory (dir : option str) (period : Z) : pm unit :=
  match dir with
  | None => plift (Err TypeError)
  | Some d =>
      files <~ plift (e_list v d) ;;
      names <~ addFiles files [] ;;
      dirs <~ pget m_dirs ;;
      put_dirs (dset zlist_eqb dirs d (DirInfo names (e_now v + period) period))
  end.
(** config_policy_manager.py 1010-1024: delete the certificates of a directory *)
Fixpoint dropCerts (l : list str) : pm unit :=
  match l with
  | [] => pret tt
  | c :: l' =>
      match n_set c with
      | Err KeyError => dropCerts l'
      | Err e => plift (Err e)
      | Ok n =>
          r <~ rfind n ;;
          match r with
          | None => dropCerts l'
          | Some d => rc <~ pget m_rcache ;; put_rcache (cc_delete rc (d_name d)) ;;; dropCerts l'
          end
      end
  end.
(** config_policy_manager.py 1000-1025: refreshAnchors, over the items of _refreshDirectories: no key is
    added, and the item of a directory is only replaced when it has been read *)
Fixpoint refreshDirs (l : dict str dirinfo) : pm unit :=
  match l with
  | [] => pret tt
  | (dir, info) :: l' =>
      (if di_next info <=? e_now v then dropCerts (di_certs info) ;;; addDirectory (Some dir) (di_period info) else pret tt) ;;;
      refreshDirs l'
  end.
Definition refreshAnchors : pm unit := dirs <~ pget m_dirs ;; refreshDirs dirs.

(** ** Loading *)
(** [t[key][0].getValue()] *)
Definition firstValue (t : tree) (key : str) : res (option str) := match t_getitem t key with s :: _ => Ok (t_value s) | [] => Err IndexError end.
Definition is_word (x : option str) (w : str) : bool := match x with Some t => zlist_eqb t w | None => false end.
(** config_policy_manager.py 215-226: the refresh period in milliseconds; re.match(None) raises *)
Definition refreshPeriod (x : option str) : res Z :=
  match x with
  | None => Err TypeError
  | Some t =>
      Ok (1000 * match refresh_parse t with
                 | Some (d, c) => let n := int_digits d in if negb (c =? 115) then if negb (c =? 109) then n * 60 * 60 else n * 60 else n
                 | None => 0
                 end)
  end.
(** config_policy_manager.py 200-236: the loop of _loadTrustAnchorCertificates.  [last] are the local
    variables certID and isPath: an anchor of an unknown type leaves those of the one before it. *)
Fixpoint loadAnchors (l : list tree) (last : option (option str * bool)) : pm unit :=
  match l with
  | [] => pret tt
  | a :: l' =>
      typeName <~ plift (firstValue a w_type) ;;
      if is_word typeName w_dir then
        dir <~ plift (firstValue a w_dir) ;;
        r <~ plift (firstValue a w_refresh) ;;
        period <~ plift (refreshPeriod r) ;;
        addDirectory dir period ;;;
        loadAnchors l' last
      else if is_word typeName w_any then put_requires false
      else
        last' <~ (if is_word typeName w_file then f <~ plift (firstValue a w_file_name) ;; pret (Some (f, true))
                  else if is_word typeName w_base64 then b <~ plift (firstValue a w_base64_string) ;; pret (Some (b, false))
                  else pret last) ;;
        match last' with
        | None => plift (Err OtherError)
        | Some (certID, isPath) => lookupCertificate certID isPath ;;; loadAnchors l' last'
        end
  end.
(** config_policy_manager.py 119-140: reset; 187-198: the anchors *)
Definition reset : pm unit := fun m => (Mgr (cc_clear (m_cache m)) [] [] true t_new (cc_new (p_lifetime P)) [] (m_outs m), Ok tt).
(** config_policy_manager.py 142-158: load.  [err]: what reading of the text raises; [root]: the tree read up to there. *)
Definition load (root : tree) (err : option exn) : pm unit :=
  reset ;;;
  put_config root ;;;
  match err with
  | Some e => plift (Err e)
  | None => loadAnchors (t_getitem root w_validator_anchor) None
  end.

(** ** Rules *)
(** config_policy_manager.py 518-541: _matchesRelation *)
Definition matchesRelation (n matchName : name) (relation : option str) : bool :=
  if is_word relation w_strict then if zlen matchName =? zlen n then false else n_match matchName n
  else if is_word relation w_prefix then n_match matchName n
  else if is_word relation w_equal then n_equals matchName n
  else false.
(** Name(uri), where Name(None) is the empty name *)
Definition name_value (x : option str) : res name := match x with Some u => n_set u | None => Ok [] end.
(** NdnRegexTopMatcher(expr).match(n) *)
Definition re_match (expr : str) (n : name) : res (top * bool) := x <-- top_new (p_groups P) expr ;; Ok (top_match (p_search P) x n).
(** config_policy_manager.py 499-512: one filter; all filters *)
Definition filterPasses (f : tree) (n : name) : res bool :=
  match getFirstValue f w_regex with
  | None => q <-- name_value (getFirstValue f w_name) ;; Ok (matchesRelation n q (getFirstValue f w_relation))
  | Some e => x <-- re_match e n ;; Ok (snd x)
  end.
Fixpoint filtersPass (l : list tree) (n : name) : res bool :=
  match l with [] => Ok true | f :: l' => b <-- filterPasses f n ;; if b then filtersPass l' n else Ok false end.
(** config_policy_manager.py 481-516: _findMatchingRule *)
Fixpoint findRule (l : list tree) (n : name) (matchType : str) : res (option tree) :=
  match l with
  | [] => Ok None
  | r :: l' =>
      x <-- firstValue r w_for ;;
      if is_word x matchType then
        b <-- filtersPass (t_getitem r w_filter) n ;;
        if b then Ok (Some r) else findRule l' n matchType
      else findRule l' n matchType
  end.
Definition findMatchingRule (n : name) (matchType : str) : pm (option tree) := t <~ pget m_config ;; plift (findRule (t_getitem t w_validator_rule) n matchType).

(** [t[key][0]] *)
Definition firstTree (t : tree) (key : str) : res tree := match t_getitem t key with s :: _ => Ok s | [] => Err IndexError end.
(** config_policy_manager.py 259-306: a fixed-signer *)
Definition checkFixedSigner (k : name) (checker : tree) : pm bool :=
  signer <~ plift (firstTree checker w_signer) ;;
  typeName <~ plift (firstValue signer w_type) ;;
  cert <~ (if is_word typeName w_file then f <~ plift (firstValue signer w_file_name) ;; lookupCertificate f true
           else if is_word typeName w_base64 then b <~ plift (firstValue signer w_base64_string) ;; lookupCertificate b false
           else match typeName with Some _ => pret None | None => plift (Err TypeError) end) ;;
  pret (match cert with Some d => n_equals (d_name d) k | None => false end).
(** config_policy_manager.py 307-340: hierarchical *)
Definition checkHierarchical (k n : name) : res bool :=
  x <-- re_match identityRegex k ;;
  if snd x then
    a <-- expand (fst x) [92; 49] ;; b <-- expand (fst x) [92; 50] ;;
    Ok (matchesRelation n (a ++ b) (Some w_prefix))
  else
    y <-- re_match identityRegex2 k ;;
    if snd y then a <-- expand (fst y) [92; 49] ;; Ok (matchesRelation n a (Some w_prefix))
    else Ok false.
(** config_policy_manager.py 369-410: a hyper-relation; otherwise 412 *)
Definition checkHyper (k n : name) (l : list tree) : res bool :=
  match l with
  | [] => Ok false
  | h :: _ =>
      match getFirstValue h w_k_regex, getFirstValue h w_k_expand, getFirstValue h w_p_regex, getFirstValue h w_p_expand, getFirstValue h w_h_relation with
      | Some kr, Some ke, Some pr, Some pe, Some rel =>
          x <-- re_match kr k ;;
          if negb (snd x) then Ok false
          else
            a <-- expand (fst x) ke ;;
            y <-- re_match pr n ;;
            if negb (snd y) then Ok false
            else b <-- expand (fst y) pe ;; Ok (matchesRelation b a (Some rel))
      | _, _, _, _, _ => Ok false
      end
  end.
(** config_policy_manager.py 341-410: customized *)
Definition checkCustomized (k n : name) (checker : tree) : res bool :=
  info <-- firstTree checker w_key_locator ;;
  match getFirstValue info w_relation with
  | Some rel => u <-- firstValue info w_name ;; q <-- name_value u ;; Ok (matchesRelation k q (Some rel))
  | None =>
      match getFirstValue info w_regex with
      | Some e => x <-- re_match e k ;; Ok (snd x)
      | None => checkHyper k n (t_getitem info w_hyper_relation)
      end
  end.
(** config_policy_manager.py 238-413: _checkSignatureMatch.  412: the text of the failure with a missing
    type (None) raises. *)
Definition checkSignatureMatch (k n : name) (rule : tree) : pm bool :=
  checker <~ plift (firstTree rule w_checker) ;;
  typeName <~ plift (firstValue checker w_type) ;;
  if is_word typeName w_fixed_signer then checkFixedSigner k checker
  else if is_word typeName w_hierarchical then plift (checkHierarchical k n)
  else if is_word typeName w_customized then plift (checkCustomized k n checker)
  else match typeName with Some _ => pret false | None => plift (Err TypeError) end.

(** ** Timestamps of command Interests *)
(** config_policy_manager.py 568-597: _interestTimestampIsFresh *)
Definition timestampIsFresh (k : name) (ts : Z) : pm bool :=
  d <~ pget m_ts ;;
  match dget zlist_eqb d (n_toUri k false) with
  | Some last => pret (negb (ts <=? last))
  | None => pret ((e_now v - p_grace P <? ts) && (ts <? e_now v + p_grace P))
  end.
(** config_policy_manager.py 617-624: the loop over the keys.  Python 3 raises RuntimeError when it goes on after a deletion. *)
Fixpoint scanKeys (l : dict str Z) (d : dict str Z) (oldest : Z) (oldestKey : option str) : dict str Z * res (option str) :=
  match l with
  | [] => (d, Ok oldestKey)
  | (k, ts) :: l' =>
      if p_ttl P <? e_now v - ts then (dremove zlist_eqb d k, Err RuntimeError)
      else if ts <? oldest then scanKeys l' d ts (Some k)
      else scanKeys l' d oldest oldestKey
  end.
(** config_policy_manager.py 599-628: _updateTimestampForKey *)
Definition updateTimestampForKey (k : name) (ts : Z) : pm unit :=
  d0 <~ pget m_ts ;;
  let d := dset zlist_eqb d0 (n_toUri k false) ts in
  put_ts d ;;;
  if p_maxKeys P <=? zlen d then
    let (d1, r) := scanKeys d d (e_now v) None in
    put_ts d1 ;;;
    oldestKey <~ plift r ;;
    if p_maxKeys P <? zlen d1 then
      match oldestKey with
      | None => plift (Err KeyError)
      | Some o => d2 <~ plift (ddel zlist_eqb d1 o) ;; put_ts d2
      end
    else pret tt
  else pret tt.

(** ** Verification *)
(** config_policy_manager.py 543-566: _extractSignature *)
Definition extractSignature (p : packet) : res (option signature) :=
  match p with
  | PData d => Ok (Some (d_sig d))
  | PInterest n =>
      match (ci <-- py_getitem n (-2) ;; cv <-- py_getitem n (-1) ;; decodeSignatureInfoAndValue (c_value ci) (c_value cv)) with
      | Ok s => Ok (Some s)
      | Err IndexError => Ok None
      | Err ValueError => Ok None
      | Err e => Err e
      end
  end.
(** config_policy_manager.py 824-826, 874-877: the certificate for a key locator name *)
Definition findCertificate (k : name) : pm (option data) := r <~ rfind k ;; match r with Some d => pret (Some d) | None => cfind k end.
(** config_policy_manager.py 757-830: _getCertificateInterest: None if it fails; the empty name if the
    certificate is there *)
Definition getCertificateInterest (step : Z) (matchType : str) (n : name) (s : signature) : pm (option name) :=
  if p_maxDepth P <? step then plift (Err TypeError)
  else
    rule <~ (fun m => match findMatchingRule n matchType m with (m', Ok r) => (m', Ok r) | (m', Err _) => (m', Ok None) end) ;;
    match rule with
    | None => pret None
    | Some r =>
        match kl_ofSignature s with
        | None => pret None
        | Some kl =>
            let k := kl_name kl in
            if zlen k =? 0 then pret None
            else
              b <~ checkSignatureMatch k n r ;;
              if negb b then pret None
              else
                refreshAnchors ;;;
                c <~ findCertificate k ;;
                match c with None => pret (Some k) | Some _ => pret (Some []) end
        end
    end.
(** policy_manager.py 129-160: verifySignature, for the signatures that have a key locator *)
Definition verifySignature (s : signature) (signedBytes key : bytes) : res bool :=
  match s with
  | SigRsa _ _ _ | SigEcdsa _ _ _ => p_verifyKey P s signedBytes key
  | _ => Err SecurityException
  end.
(** config_policy_manager.py 832-900: _verify; certificate_v2.py 158-170: getPublicKey *)
Definition verify (s : signature) (signedBytes : bytes) : pm bool :=
  match kl_ofSignature s with
  | None => plift (Err OtherError)
  | Some kl =>
      if match kl_type kl with Some t => t =? 1 | None => false end then
        c <~ findCertificate (kl_name kl) ;;
        match c with
        | None => pret false
        | Some d =>
            match d_content d with
            | Some (x :: key) => plift (verifySignature s signedBytes (x :: key))
            | _ => pret false
            end
        end
      else pret false
  end.
Definition fail (k : cont) (p : packet) : pm unit := emit (AFailed (root_call k) p).

(** config_policy_manager.py 630-755: checkVerificationPolicy.  The callback of the application, or the
    closure of 689-716, is called in a try block.  The closure gives up what the inner
    checkVerificationPolicy returns (715). *)
Fixpoint check (k : cont) (p : packet) (step : Z) {struct k} : pm (option request) :=
  obj <~ plift (match p with PData d => Ok (d_name d) | PInterest n => n_getPrefix n (-4) end) ;;
  sg <~ plift (extractSignature p) ;;
  match sg with
  | None => fail k p ;;; pret None
  | Some s =>
      ci <~ getCertificateInterest step (match p with PData _ => w_data | PInterest _ => w_interest end) obj s ;;
      match ci with
      | None => fail k p ;;; pret None
      | Some n =>
          if 0 <? zlen n then pret (Some (Request n (KCert p step k) (step + 1)))
          else
            stamp <~ match p with
                     | PData _ => pret (Some None)
                     | PInterest i =>
                         kl <~ plift (match kl_ofSignature s with Some kl => Ok kl | None => Err OtherError end) ;;
                         c <~ plift (py_getitem i (-4)) ;;
                         fresh <~ timestampIsFresh (kl_name kl) (c_toNumber c) ;;
                         if (fresh : bool) then pret (Some (Some (kl_name kl, c_toNumber c)))
                         else fail k p ;;; pret None
                     end ;;
            match stamp with
            | None => pret None
            | Some st =>
                b <~ plift (p_signed P p) ;;
                ok <~ verify s b ;;
                if (ok : bool) then
                  match k with
                  | KApp call => emit (AVerified call p)
                  | KCert p0 step0 k0 =>
                      logged (root_call k0)
                        match p with
                        | PData d =>
                            match cert_checkFormat d with
                            | Err _ => fail k0 p0
                            | Ok _ => cinsert d ;;; check k0 p0 (step0 + 1) ;;; pret tt
                            end
                        | PInterest _ => pret tt
                        end
                  end ;;;
                  match st with Some (kn, ts) => updateTimestampForKey kn ts | None => pret tt end ;;;
                  pret None
                else fail k p ;;; pret None
            end
      end
  end.
(** the same call of onVerified from key_chain.py 1196-1200 *)
Definition callVerified (k : cont) (p : packet) : pm unit :=
  match k with
  | KApp call => emit (AVerified call p)
  | KCert p0 step0 k0 =>
      logged (root_call k0)
        match p with
        | PData d =>
            match cert_checkFormat d with
            | Err _ => fail k0 p0
            | Ok _ => cinsert d ;;; check k0 p0 (step0 + 1) ;;; pret tt
            end
        | PInterest _ => pret tt
        end
  end.
(** key_chain.py 1188-1207 and 1254-1272, up to expressInterest (config_policy_manager.py 160-185:
    requireVerify and skipVerifyAndTrust, so the last branch is never taken) *)
Definition verifyPacket (k : cont) (p : packet) (step : Z) : pm (option request) :=
  required <~ pget m_requires ;;
  if (required : bool) then check k p step
  else if negb required then callVerified k p ;;; pret None
  else fail k p ;;; pret None.
End Env.

(** ** The key chain and its Interests *)
(** An Interest that waits: its number, its name, the closures, and how often it is still repeated *)
Record pend : Type := Pend { pd_id : nat; pd_req : request; pd_retry : Z }.
Record world : Type := World { w_mgr : mgr; w_pend : list pend; w_next : nat }.
(** load, verifyData or verifyInterest, and the callbacks of the Face: onData, onTimeout *)
Inductive event : Type := ELoad (root : tree) (err : option exn) | EVerify (call : Z) (p : packet) | EData (i : nat) (d : data) | ETimeout (i : nat).
Definition mgr_new : mgr := Mgr (cc_new (p_lifetime P)) [] [] true t_new (cc_new (p_lifetime P)) [] [].
(** config_policy_manager.py 90-117 *)
Definition world_new : world := World mgr_new [] 0.
(** key_chain.py 1192-1195, 1258-1261, 1770-1774: expressInterest *)
Definition express (v : env) (q : request) (retry : Z) (w : world) : world * option exn :=
  match e_express v (q_name q) with
  | Some e => (w, Some e)
  | None => (World (fst (emit (AExpress (root_call (q_cont q)) (q_name q)) (w_mgr w))) (w_pend w ++ [Pend (w_next w) q retry]) (S (w_next w)), None)
  end.
Definition start (v : env) (k : cont) (p : packet) (step : Z) (w : world) : world * option exn :=
  match verifyPacket v k p step (w_mgr w) with
  | (m, Err e) => (World m (w_pend w) (w_next w), Some e)
  | (m, Ok None) => (World m (w_pend w) (w_next w), None)
  | (m, Ok (Some q)) => express v q 2 (World m (w_pend w) (w_next w))
  end.
Definition take (i : nat) (l : list pend) : option pend := find (fun x => Nat.eqb (pd_id x) i) l.
Definition drop (i : nat) (l : list pend) : list pend := List.filter (fun x => negb (Nat.eqb (pd_id x) i)) l.
(** key_chain.py 1761-1783: the packet whose certificate is missing *)
Definition failTimeout (q : request) (m : mgr) : mgr := match q_cont q with KCert p _ k => fst (fail k p m) | KApp _ => m end.
(** One event: the new state, and what is raised to the caller.  [m_outs] has what this event has called. *)
Definition clear_outs (w : world) : world := World (Mgr (m_cache (w_mgr w)) (m_fixed (w_mgr w)) (m_ts (w_mgr w)) (m_requires (w_mgr w)) (m_config (w_mgr w)) (m_rcache (w_mgr w)) (m_dirs (w_mgr w)) []) (w_pend w) (w_next w).
Definition do (v : env) (e : event) (w0 : world) : world * option exn :=
  let w := clear_outs w0 in
  match e with
  | ELoad root err =>
      match load v root err (w_mgr w) with
      | (m, r) => (World m (w_pend w) (w_next w), match r with Ok _ => None | Err x => Some x end)
      end
  | EVerify call p => start v (KApp call) p 0 w
  | EData i d =>
      match take i (w_pend w) with
      | None => (w, None)
      | Some x => start v (q_cont (pd_req x)) (PData d) (q_step (pd_req x)) (World (w_mgr w) (drop i (w_pend w)) (w_next w))
      end
  | ETimeout i =>
      match take i (w_pend w) with
      | None => (w, None)
      | Some x =>
          let w := World (w_mgr w) (drop i (w_pend w)) (w_next w) in
          if 0 <? pd_retry x then express v (pd_req x) (pd_retry x - 1) w
          else (World (failTimeout (pd_req x) (w_mgr w)) (w_pend w) (w_next w), None)
      end
  end.
Definition run (h : list (env * event)) : world := fold_left (fun w x => fst (do (fst x) (snd x) w)) h world_new.
(** what the event has called *)
Definition outs (w : world) : list act := m_outs (w_mgr w).
(** everything that was called, event by event *)
Fixpoint trace_from (w : world) (h : list (env * event)) : list act :=
  match h with [] => [] | (v, e) :: h' => let w' := fst (do v e w) in outs w' ++ trace_from w' h' end.
Definition trace (h : list (env * event)) : list act := trace_from world_new h.
End Cpm.
