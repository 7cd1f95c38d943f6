(** * Model of SigningInfo: its constructors, setters and string form *)
From Verif Require Import Base NameModel WireModel UriModel FrontModel ChainModel.
Local Open Scope res_scope.

(** "id", "key", "cert" *)
Definition s_id : list Z := [105; 100].
Definition s_key : list Z := [107; 101; 121].
Definition s_cert : list Z := [99; 101; 114; 116].

(** signing_info.py 360-379: reset; the digest algorithm stays *)
Definition si_reset (s : signinginfo) (type : Z) : res signinginfo :=
  if (type =? SI_NULL) || (type =? SI_ID) || (type =? SI_KEY) || (type =? SI_CERT) || (type =? SI_SHA256)
  then Ok (SI type [] None None (si_digest s) vp_none) else Err ValueError.
Definition si_setName (s : signinginfo) (n : name) : signinginfo := SI (si_type s) n (si_identity s) (si_key s) (si_digest s) (si_validity s).
(** signing_info.py 75-79, 90-96: SigningInfo(), SigningInfo(signerType, signerName) *)
Definition si_ofType (type : Z) (n : option name) : res signinginfo :=
  s <-- si_reset si_default type ;; Ok (match n with Some n => si_setName s n | None => s end).
(** signing_info.py 147-185: setSigningIdentity, setSigningKeyName, setSigningCertificateName *)
Definition si_setIdentity (s : signinginfo) (n : name) : res signinginfo := s <-- si_reset s SI_ID ;; Ok (si_setName s n).
Definition si_setKeyName (s : signinginfo) (n : name) : res signinginfo := s <-- si_reset s SI_KEY ;; Ok (si_setName s n).
Definition si_setCertificateName (s : signinginfo) (n : name) : res signinginfo := s <-- si_reset s SI_CERT ;; Ok (si_setName s n).
(** signing_info.py 187-197: setSha256Signing *)
Definition si_setSha256 (s : signinginfo) : res signinginfo :=
  s <-- si_reset s SI_SHA256 ;; Ok (SI (si_type s) (si_name s) (si_identity s) (si_key s) DA_SHA256 (si_validity s)).
(** signing_info.py 199-231: setPibIdentity, setPibKey; [None] is the value None *)
Definition si_setPibIdentity (s : signinginfo) (h : option handle) : res signinginfo :=
  s <-- si_reset s SI_ID ;; Ok (SI (si_type s) (match h with Some h => h_name h | None => si_name s end) h (si_key s) (si_digest s) (si_validity s)).
Definition si_setPibKey (s : signinginfo) (h : option handle) : res signinginfo :=
  s <-- si_reset s SI_KEY ;; Ok (SI (si_type s) (match h with Some h => h_name h | None => si_name s end) (si_identity s) h (si_digest s) (si_validity s)).
(** signing_info.py 280-290, 301-314: setDigestAlgorithm, setValidityPeriod *)
Definition si_setDigest (s : signinginfo) (d : Z) : signinginfo := SI (si_type s) (si_name s) (si_identity s) (si_key s) d (si_validity s).
(** signing_info.py 252-278: getPibIdentity, getPibKey *)
Definition si_getPibIdentity (s : signinginfo) : res (option handle) := if negb (si_type s =? SI_ID) then Err ValueError else Ok (si_identity s).
Definition si_getPibKey (s : signinginfo) : res (option handle) := if negb (si_type s =? SI_KEY) then Err ValueError else Ok (si_key s).
(** signing_info.py 103-133: SigningInfo(signingString) *)
Definition si_parse (str : list Z) : res signinginfo :=
  if zlist_eqb str [] then Ok si_default
  else
    match find_idx 58 str with
    | None => Err ValueError
    | Some iColon =>
        let scheme := firstn iColon str in
        let nameArg := skipn (S iColon) str in
        if zlist_eqb scheme s_id then
          if zlist_eqb nameArg (n_toUri digest_identity false) then si_setSha256 si_default
          else n <-- n_set nameArg ;; si_setIdentity si_default n
        else if zlist_eqb scheme s_key then n <-- n_set nameArg ;; si_setKeyName si_default n
        else if zlist_eqb scheme s_cert then n <-- n_set nameArg ;; si_setCertificateName si_default n
        else Err ValueError
    end.
(** signing_info.py 328-347: __str__ *)
Definition si_str (s : signinginfo) : res (list Z) :=
  if si_type s =? SI_NULL then Ok []
  else if si_type s =? SI_ID then Ok (s_id ++ 58 :: n_toUri (si_name s) false)
  else if si_type s =? SI_KEY then Ok (s_key ++ 58 :: n_toUri (si_name s) false)
  else if si_type s =? SI_CERT then Ok (s_cert ++ 58 :: n_toUri (si_name s) false)
  else if si_type s =? SI_SHA256 then Ok (s_id ++ 58 :: n_toUri digest_identity false)
  else Err ValueError.
(** The calls of a user on one SigningInfo *)
Inductive sicall : Type :=
  | SReset (type : Z) | SIdentity (n : name) | SKeyName (n : name) | SCertificate (n : name) | SSha256
  | SPibIdentity (h : option handle) | SPibKey (h : option handle) | SDigest (d : Z) | SValidity (v : validity).
(** A call that raises leaves the object alone: reset checks its argument first. *)
Definition si_call (s : signinginfo) (c : sicall) : signinginfo :=
  match
    match c with
    | SReset t => si_reset s t | SIdentity n => si_setIdentity s n | SKeyName n => si_setKeyName s n | SCertificate n => si_setCertificateName s n
    | SSha256 => si_setSha256 s | SPibIdentity h => si_setPibIdentity s h | SPibKey h => si_setPibKey s h
    | SDigest d => Ok (si_setDigest s d) | SValidity v => Ok (si_setValidity s v)
    end
  with Ok s' => s' | Err _ => s end.
Definition si_run (s : signinginfo) (l : list sicall) : signinginfo := fold_left si_call l s.
