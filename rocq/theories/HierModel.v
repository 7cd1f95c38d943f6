(** * Model of the names of keys and certificates, of the format check of CertificateV2 and of
    ValidationPolicySimpleHierarchy *)
From Verif Require Import Base TlvModel NameModel WireModel CtlModel MatchModel CmdModel ValModel.
Local Open Scope res_scope.

(** certificate_v2.py 318: KEY_COMPONENT *)
Definition KEY : comp := c_generic [75; 69; 89].
(** certificate_v2.py 266-277: isValidName *)
Definition cert_isValidName (n : name) : res bool :=
  if 4 <=? zlen n then c <-- py_getitem n (-4) ;; Ok (c_equals c KEY) else Ok false.
(** certificate_v2.py 280-293: extractIdentityFromCertName *)
Definition cert_extractIdentity (n : name) : res name :=
  v <-- cert_isValidName n ;; if negb v then Err ValueError else n_getPrefix n (-4).
(** certificate_v2.py 296-310: extractKeyNameFromCertName *)
Definition cert_extractKeyName (n : name) : res name :=
  v <-- cert_isValidName n ;; if negb v then Err ValueError else n_getPrefix n (-3 + 1).
(** certificate_v2.py 122-129, 131-138, 140-147, 149-156: getKeyName, getIdentity, getKeyId,
    getIssuerId *)
Definition cert_getKeyName (n : name) : res name := n_getPrefix n (-3 + 1).
Definition cert_getIdentity (n : name) : res name := n_getPrefix n (-4).
Definition cert_getKeyId (n : name) : res comp := py_getitem n (-3).
Definition cert_getIssuerId (n : name) : res comp := py_getitem n (-2).
(** pib_key.py 108-120: constructKeyName *)
Definition key_construct (identity : name) (keyId : comp) : name := (identity ++ [KEY]) ++ [keyId].
(** pib_key.py 123-133: isValidKeyName *)
Definition key_isValid (n : name) : res bool :=
  if 2 <? zlen n then c <-- py_getitem n (-2) ;; Ok (c_equals c KEY) else Ok false.
(** pib_key.py 136-149: extractIdentityFromKeyName *)
Definition key_extractIdentity (n : name) : res name :=
  v <-- key_isValid n ;; if negb v then Err ValueError else n_getPrefix n (-2).

(** certificate_v2.py 107-120: _checkFormat; CertificateV2.Error is [OtherError].  The
    comparison of a missing freshness period (None) with a number raises TypeError. *)
Definition cert_checkFormat (d : data) : res unit :=
  v <-- cert_isValidName (d_name d) ;;
  if negb v then Err OtherError
  else if negb (mi_type (d_meta d) =? 2) then Err OtherError
  else
    match mi_freshness (d_meta d) with
    | None => Err TypeError
    | Some f => if f <? 0 then Err OtherError else if blob_size (d_content d) =? 0 then Err OtherError else Ok tt
    end.

(** A packet to validate: a Data packet, or a signed Interest by its name *)
Inductive packet : Type := PData (d : data) | PInterest (n : name).
Definition p_name (p : packet) : name := match p with PData d => d_name d | PInterest n => n end.
(** validation_policy.py 133-170: getKeyLocatorName; None if it calls state.fail *)
Definition p_locator (p : packet) : option name := match p with PData d => sig_keyName (d_sig d) | PInterest n => keyLocatorName n end.
(** interest.py 66-88: Interest(name); [cbp] is Interest._defaultCanBePrefix *)
Definition i_ofName (cbp : bool) (n : name) : interest :=
  Interest n None (if cbp then None else Some 1) kl_empty [] None false None None [] None None None.
(** validation_policy_simple_hierarchy.py 35-53: checkPolicy, also of a certificate
    (validation_policy.py 111-130) *)
Definition hier_check (cbp : bool) (p : packet) : verdict interest :=
  match p_locator p with
  | None => VFail
  | Some k =>
      match n_getPrefix k (-2) with
      | Err e => VRaise e
      | Ok q => if n_isPrefixOf q (p_name p) then VContinue (Some (i_ofName cbp k)) else VFail
      end
  end.


(** ** The validator with this policy
    (validator.py 43-100).  The API only makes names with valid components; certificates and
    Interests here carry a proof of that.  An Interest whose matchesData raises matches nothing. *)
Definition c_validb (c : comp) : bool :=
  bytes_okb (c_value c) &&
  ((c_type c =? CT_OTHER) && (0 <=? c_other c) && negb (c_other c =? 1) && negb (c_other c =? 2) && negb (c_other c =? 8) ||
   ((c_type c =? CT_IMPLICIT) || (c_type c =? CT_PARAMS) || (c_type c =? CT_GENERIC)) && (c_other c =? -1)).
Definition n_validb (n : name) : bool := forallb c_validb n.
Definition vcert : Type := {d : data | n_validb (d_name d) = true}.
Definition vreq : Type := {i : interest | n_validb (i_name i) = true}.
Definition hier_pol (cbp : bool) (p : packet) : verdict vreq :=
  match hier_check cbp p with
  | VFail => VFail
  | VRaise e => VRaise e
  | VNothing => VNothing
  | VContinue None => VContinue None
  | VContinue (Some r) => match Bool.bool_dec (n_validb (i_name r)) true with left h => VContinue (Some (exist _ r h)) | right _ => VFail end
  end.
Section Run.
Variable sha256 : bytes -> bytes.
Variable period : data -> res (Z * Z).
Variable verify : packet -> data -> res bool.
Variable express : nat -> vreq -> option exn.
Variable files : nat -> Z -> res (list (option vcert)).
Variable online cbp : bool.
Variable maxDepth : Z.
Definition vname (c : vcert) : name := d_name (proj1_sig c).
Definition vperiod (c : vcert) : res (Z * Z) := period (proj1_sig c).
Definition vcheck (c : vcert) : res unit := cert_checkFormat (proj1_sig c).
Definition vreqname (r : vreq) : name := i_name (proj1_sig r).
Definition vmatches (r : vreq) (c : vcert) : bool := match i_matchesData sha256 (proj1_sig r) (proj1_sig c) with Ok b => b | Err _ => false end.
Definition vver (p : packet) (c : vcert) : res bool := verify p (proj1_sig c).
Definition vverc (c t : vcert) : res bool := verify (PData (proj1_sig c)) (proj1_sig t).
Definition hier_run (h : list (@event packet vcert)) : @world packet vcert vreq :=
  run vname vperiod vcheck vreqname vmatches vver vverc (fun _ p => hier_pol cbp p) (fun _ c => hier_pol cbp (PData (proj1_sig c))) express files online maxDepth h.
End Run.
