(** * Model of KeyChain (security v2), Tpm, TpmBackEnd, TpmBackEndMemory and SigningInfo

    The cryptography is not modelled: [P] are the private keys (TpmPrivateKey, loaded),
    [derive] is derivePublicKey, [psign r p m] is the signature of [m] by [p] with the randomness
    [r], [pverify bits m sig] is VerificationHelpers.verifySignature with PublicKey(bits) (which
    may raise), [ktype] is PublicKey(bits).getKeyType() (which may raise), [sha] is SHA-256, and
    [load] and [dump] are TpmPrivateKey.loadPkcs8 / loadEncryptedPkcs8 and toPkcs8 /
    toEncryptedPkcs8.  The results of the random number generators, of the generation of keys and
    of the clock are arguments of the calls.  The clock gives whole milliseconds.

    The PIB is the one of FrontModel over PibMemory, with CertificateV2 objects (Data packets) as
    certificates.  Pib.Error is [OtherError]; KeyChain.Error, InvalidSigningInfoError, Tpm.Error
    and TpmBackEnd.Error are [RuntimeError].  [k_log] is not a part of the program: it records the
    calls of the Pib with their results, and nothing reads it. *)
From Verif Require Import Base NameModel DictModel WireModel CtlModel HierModel PibModel FrontModel.
Local Open Scope sm_scope.

(** security_types.py: KeyType, DigestAlgorithm; key_id_type.py: KeyIdType *)
Definition KT_RSA : Z := 0.
Definition KT_EC : Z := 1.
Definition DA_SHA256 : Z := 1.
Definition KI_USER : Z := 0.
Definition KI_SHA256 : Z := 1.
Definition KI_RANDOM : Z := 2.
(** key_params.py 31-78: the fields of KeyParams *)
Record keyparams : Type := KeyParams { kp_type : Z; kp_idType : Z; kp_id : comp }.

(** CertificateV2: its name, the bytes of its content, its copy constructor (certificate_v2.py
    90-120) *)
Definition x_name (d : data) : name := d_name d.
Definition x_content (d : data) : bytes := match d_content d with Some b => b | None => [] end.
Definition x_check (d : data) : res unit := cert_checkFormat d.

(** signing_info.py 75-99, 187-250: the fields of SigningInfo; the types are 135-145 *)
Definition SI_NULL : Z := 0.
Definition SI_ID : Z := 1.
Definition SI_KEY : Z := 2.
Definition SI_CERT : Z := 3.
Definition SI_SHA256 : Z := 4.
Record signinginfo : Type := SI { si_type : Z; si_name : name; si_identity : option handle; si_key : option handle; si_digest : Z; si_validity : validity }.
Definition si_new (type : Z) (n : name) : signinginfo := SI type n None None DA_SHA256 vp_none.
(** signing_info.py 75-79, 147-231 *)
Definition si_default : signinginfo := si_new SI_NULL [].
Definition si_ofIdentity (i : name) : signinginfo := si_new SI_ID i.
Definition si_ofKey (k : name) : signinginfo := si_new SI_KEY k.
Definition si_ofCertificate (n : name) : signinginfo := si_new SI_CERT n.
Definition si_ofSha256 : signinginfo := si_new SI_SHA256 [].
Definition si_ofPibIdentity (h : handle) : signinginfo := SI SI_ID (h_name h) (Some h) None DA_SHA256 vp_none.
Definition si_ofPibKey (h : handle) : signinginfo := SI SI_KEY (h_name h) None (Some h) DA_SHA256 vp_none.
Definition si_setValidity (s : signinginfo) (v : validity) : signinginfo := SI (si_type s) (si_name s) (si_identity s) (si_key s) (si_digest s) v.
(** signing_info.py 349-358: /localhost/identity/digest-sha256 *)
Definition digest_identity : name :=
  [c_generic [108;111;99;97;108;104;111;115;116]; c_generic [105;100;101;110;116;105;116;121]; c_generic [100;105;103;101;115;116;45;115;104;97;50;53;54]].

Section Chain.
Variable P : Type.
Variable derive : P -> bytes.
Variable psign : Z -> P -> bytes -> bytes.
Variable pverify : bytes -> bytes -> bytes -> res bool.
Variable ktype : bytes -> res Z.
Variable sha : bytes -> bytes.
Variable load : bytes -> option bytes -> res P.
Variable dump : P -> option bytes -> bytes.
Variable ord : list name -> list name.
Notation nget := (dget n_equals).
Notation nin := (din n_equals).
Notation nset := (dset n_equals).
Notation ndrop := (dremove n_equals).
Notation fexec := (fexec x_name x_content x_check ord ktype).
Notation fcall := (fcall data).
Notation answer := (answer data).

(** tpm.py 54-59: Tpm._keys; tpm_back_end_memory.py 35-36: TpmBackEndMemory._keys *)
Record tpmst : Type := Tpm { t_handles : dict name P; t_keys : dict name P }.
(** key_chain.py 114-115 *)
Record kstate : Type := KState { k_pib : front data; k_tpm : tpmst; k_log : trace data }.
Definition k_new (b : pib data) (keys : dict name P) : kstate := KState (front_new b) (Tpm [] keys) [].
Notation km := (sm kstate).

(** A call of the Pib or of an object it returned *)
Definition pcall (o : fcall) : km answer := fun s => let (p, r) := fexec o (k_pib s) in (KState p (k_tpm s) ((o, r) :: k_log s), r).
Definition an_id (m : km answer) : km handle := a <~ m ;; match a with AId h => ret h | _ => raise TypeError end.
Definition an_key (m : km answer) : km handle := a <~ m ;; match a with AKey h => ret h | _ => raise TypeError end.
Definition an_cert (m : km answer) : km data := a <~ m ;; match a with ACert c => ret c | _ => raise TypeError end.
Definition an_bits (m : km answer) : km bytes := a <~ m ;; match a with ABits b => ret b | _ => raise TypeError end.
Definition an_none (m : km answer) : km unit := a <~ m ;; match a with ANone => ret tt | _ => raise TypeError end.
(** A part of a PIB object that the calls of FrontModel do not show *)
Definition pview {A} (m : sm (front data) A) : km A := fun s => (s, snd (m (k_pib s))).
(** except Pib.Error; except Exception *)
Definition is_pib_error (e : exn) : bool := match e with OtherError => true | _ => false end.
Definition any_exn (e : exn) : bool := true.

(** ** Tpm *)
(** tpm.py 73-81: hasKey, with tpm_back_end_memory.py 42-51 *)
Definition tpm_has (k : name) : km bool := get (fun s => nin (t_keys (k_tpm s)) k).
Definition w_tpm (t : tpmst) : km unit := put (fun s => KState (k_pib s) t (k_log s)).
(** tpm.py 262-287: _findKey, with tpm_back_end_memory.py 53-66 *)
Definition tpm_find (k : name) : km (option P) :=
  t <~ get k_tpm ;;
  match nget (t_handles t) k with
  | Some p => ret (Some p)
  | None =>
      match nget (t_keys t) k with
      | Some p => w_tpm (Tpm (nset (t_handles t) k p) (t_keys t)) ;;; ret (Some p)
      | None => ret None
      end
  end.
(** tpm.py 83-97: getPublicKey; a null Blob has no bytes *)
Definition tpm_public (k : name) : km (option bytes) := p <~ tpm_find k ;; ret (match p with Some p => Some (derive p) | None => None end).
(** tpm.py 99-118: sign, with tpm_key_handle_memory.py 46-64 *)
Definition tpm_sign (rnd : Z) (m : bytes) (k : name) (digest : Z) : km (option bytes) :=
  p <~ tpm_find k ;; ret (match p with Some p => if digest =? DA_SHA256 then Some (psign rnd p m) else None | None => None end).
(** tpm_back_end.py 93-106: the first random key id that is not in use; [rs] are the numbers drawn *)
Fixpoint fresh_id (t : dict name P) (i : name) (rs : list bytes) : res comp :=
  match rs with
  | [] => Err OutOfFuel
  | r :: rs' => let c := c_generic r in if nin t (key_construct i c) then fresh_id t i rs' else Ok c
  end.
(** tpm.py 186-206: _createKey, with tpm_back_end.py 74-110, 206-231 and tpm_back_end_memory.py
    68-91; [gen] is the generated private key *)
Definition tpm_create (i : name) (kp : keyparams) (gen : P) (rs : list bytes) : km name :=
  if (kp_type kp =? KT_RSA) || (kp_type kp =? KT_EC) then
    t <~ get k_tpm ;;
    c <~ lift (if kp_idType kp =? KI_USER then (if nin (t_keys t) (key_construct i (kp_id kp)) then Err RuntimeError else Ok (kp_id kp))
               else if kp_idType kp =? KI_SHA256 then Ok (c_generic (sha (derive gen)))
               else if kp_idType kp =? KI_RANDOM then
                 rbind (fresh_id (t_keys t) i rs) (fun c => if zlen (c_value c) =? 0 then Err RuntimeError else Ok c)
               else Err RuntimeError) ;;
    let k := key_construct i c in
    w_tpm (Tpm (nset (t_handles t) k gen) (nset (t_keys t) k gen)) ;;;
    ret k
  else raise RuntimeError.
(** tpm.py 208-223: _deleteKey, with tpm_back_end_memory.py 93-105 *)
Definition tpm_delete (k : name) : km unit := t <~ get k_tpm ;; w_tpm (Tpm (ndrop (t_handles t) k) (ndrop (t_keys t) k)).
(** tpm.py 225-241: _exportPrivateKey, with tpm_back_end.py 123-142 and tpm_back_end_memory.py 107-133 *)
Definition tpm_export (k : name) (pw : option bytes) : km bytes :=
  t <~ get k_tpm ;; match nget (t_keys t) k with Some p => ret (dump p pw) | None => raise RuntimeError end.
(** tpm.py 243-260: _importPrivateKey, with tpm_back_end.py 144-164 and tpm_back_end_memory.py 135-161 *)
Definition tpm_import (k : name) (bag : bytes) (pw : option bytes) : km unit :=
  t <~ get k_tpm ;;
  if nin (t_keys t) k then raise RuntimeError
  else p <~ lift (load bag pw) ;; w_tpm (Tpm (t_handles t) (nset (t_keys t) k p)).

(** ** Signing *)
(** key_chain.py 1629-1692: the key to sign with; [None] is a SHA-256 digest *)
Definition signing_key (si : signinginfo) : km (option handle) :=
  let of_identity (h : handle) : km (option handle) :=
    (* 1697-1703 *)
    k <~ catch is_pib_error (an_key (pcall (FDefaultKey h))) (raise RuntimeError) ;; ret (Some k) in
  let of_key_name (i k : name) : km handle := id <~ an_id (pcall (FGetIdentity i)) ;; an_key (pcall (FGetKey id k)) in
  if si_type si =? SI_NULL then
    d <~ catch is_pib_error (h <~ an_id (pcall FDefaultIdentity) ;; ret (Some h)) (ret None) ;;
    match d with None => ret None | Some h => of_identity h end
  else if si_type si =? SI_ID then
    h <~ (match si_identity si with Some h => ret h | None => catch is_pib_error (an_id (pcall (FGetIdentity (si_name si)))) (raise RuntimeError) end) ;;
    of_identity h
  else if si_type si =? SI_KEY then
    match si_key si with
    | Some k => ret (Some k)
    | None => i <~ lift (key_extractIdentity (si_name si)) ;; k <~ catch is_pib_error (of_key_name i (si_name si)) (raise RuntimeError) ;; ret (Some k)
    end
  else if si_type si =? SI_CERT then
    v <~ lift (cert_isValidName (si_name si)) ;;
    if negb v then raise ValueError
    else
      i <~ lift (n_getPrefix (si_name si) (-4)) ;;
      k <~ catch is_pib_error (id <~ an_id (pcall (FGetIdentity i)) ;; kn <~ lift (cert_extractKeyName (si_name si)) ;; an_key (pcall (FGetKey id kn))) (raise RuntimeError) ;;
      ret (Some k)
  else if si_type si =? SI_SHA256 then ret None
  else raise RuntimeError.
(** key_chain.py 1629-1726: _prepareSignatureInfo, with the name of the key *)
Definition prepare (si : signinginfo) : km (signature * name) :=
  o <~ signing_key si ;;
  match o with
  | None => ret (SigDigest None, digest_identity)
  | Some h =>
      t <~ pview (x <~ the_key (h_ref h) ;; ret (ko_type x)) ;;
      let vp := if vp_hasPeriod (si_validity si) then vp_setPeriod (vp_notBefore (si_validity si)) (vp_notAfter (si_validity si)) else vp_none in
      let kl := KL (Some 1) (h_name h) None in
      if (t =? KT_RSA) && (si_digest si =? DA_SHA256) then ret (SigRsa kl vp None, h_name h)
      else if (t =? KT_EC) && (si_digest si =? DA_SHA256) then ret (SigEcdsa kl vp None, h_name h)
      else raise RuntimeError
  end.
(** key_chain.py 1728-1746: _signBuffer *)
Definition signBuffer (rnd : Z) (m : bytes) (k : name) (digest : Z) : km (option bytes) :=
  if n_equals k digest_identity then ret (Some (sha m)) else tpm_sign rnd m k digest.
Definition signed_bytes (x : bytes * (Z * Z)) : bytes := let '(w, (b, e)) := x in zslice w b e.
(** key_chain.py 524-540: sign a Data packet; the packet with its signature is the result *)
Definition sign_data (si : signinginfo) (rnd : Z) (d : data) : km data :=
  sk <~ prepare si ;;
  let d1 := Data (d_name d) (d_meta d) (d_content d) (fst sk) in
  e <~ lift (encodeData d1) ;;
  bits <~ signBuffer rnd (signed_bytes e) (snd sk) (si_digest si) ;;
  let d2 := Data (d_name d) (d_meta d) (d_content d) (sig_setBits (fst sk) bits) in
  lift (encodeData d2) ;;;
  ret d2.
(** key_chain.py 541-560: sign an Interest; only its name changes.  The signed portion is the one
    of wireEncode; [rn] is the nonce that wireEncode draws if the Interest has none. *)
Definition i_setName (i : interest) (n : name) : interest :=
  Interest n (i_min i) (i_max i) (i_keyLocator i) (i_exclude i) (i_child i) (i_mustBeFresh i) (i_nonce i) (i_lifetime i) (i_hint i) (i_params i) (i_link i) (i_selected i).
Definition sign_interest (si : signinginfo) (rnd : Z) (rn : list Z) (i : interest) : km interest :=
  sk <~ prepare si ;;
  info <~ lift (encodeSignatureInfo (fst sk)) ;;
  let n1 := i_name i ++ [c_generic info; c_generic []] in
  e <~ lift (encodeInterest rn (i_setName i n1)) ;;
  bits <~ signBuffer rnd (signed_bytes e) (snd sk) (si_digest si) ;;
  p <~ lift (n_getPrefix n1 (-1)) ;;
  ret (i_setName i (p ++ [c_generic (encodeSignatureValue (sig_setBits (fst sk) bits))])).
(** key_chain.py 561-568: sign a buffer *)
Definition sign_buffer (si : signinginfo) (rnd : Z) (m : bytes) : km (option bytes) :=
  sk <~ prepare si ;; signBuffer rnd m (snd sk) (si_digest si).

(** ** Identities, keys and certificates *)
Definition self_comp : comp := c_generic [115; 101; 108; 102].
Definition YEARS_20 : Z := 20 * 365 * 24 * 3600 * 1000.
(** key_chain.py 570-618: selfSign *)
Definition selfSign (hk : handle) (now rnd : Z) : km data :=
  v <~ lift (c_fromVersion now) ;;
  bits <~ an_bits (pcall (FPublicKey hk)) ;;
  let d := Data (h_name hk ++ [self_comp; v]) (MI 2 (-1) (Some 3600000) (c_generic [])) (Some bits) (SigRsa kl_empty vp_none None) in
  c <~ sign_data (si_setValidity (si_ofPibKey hk) (vp_setPeriod now (now + YEARS_20))) rnd d ;;
  catch any_exn (an_none (pcall (FAddCert hk c))) (raise RuntimeError) ;;;
  ret c.
(** key_chain.py 335-362: createKey *)
Definition createKey (h : handle) (kp : keyparams) (gen : P) (rs : list bytes) (now rnd : Z) : km handle :=
  k <~ tpm_create (h_name h) kp gen rs ;;
  b <~ tpm_public k ;;
  (* toBytes of a null Blob raises *)
  bits <~ (match b with Some b => ret b | None => raise TypeError end) ;;
  hk <~ an_key (pcall (FAddKey h bits k)) ;;
  selfSign hk now rnd ;;;
  ret hk.
(** key_chain.py 254-289: createIdentityV2.  Lines 285-286 add a str and a Name, which is a
    TypeError. *)
Definition createIdentity (i : name) (kp : keyparams) (gen : P) (rs : list bytes) (now rnd : Z) : km handle :=
  h <~ an_id (pcall (FAddIdentity i)) ;;
  hk <~ catch is_pib_error (an_key (pcall (FDefaultKey h))) (createKey h kp gen rs now rnd) ;;
  catch is_pib_error (an_cert (pcall (FDefaultCert hk)) ;;; ret tt) (raise TypeError) ;;;
  ret h.
(** key_chain.py 316-322: deleteIdentity *)
Fixpoint tpm_deletes (l : list name) : km unit := match l with [] => ret tt | k :: l' => tpm_delete k ;;; tpm_deletes l' end.
Definition deleteIdentity (h : handle) : km unit :=
  ks <~ pview (id_keyNames (h_ref h)) ;;
  tpm_deletes ks ;;;
  an_none (pcall (FRemoveIdentity (h_name h))).
(** key_chain.py 304-311: deleteIdentity(Name) *)
Definition deleteIdentityName (i : name) : km unit :=
  catch any_exn (h <~ an_id (pcall (FGetIdentity i)) ;; deleteIdentity h) (ret tt).
(** key_chain.py 325-331: setDefaultIdentity *)
Definition setDefaultIdentity_k (h : handle) : km unit := an_id (pcall (FSetDefaultIdentity (h_name h))) ;;; ret tt.
(** key_chain.py 364-378: deleteKey *)
Definition same_identity (h hk : handle) : km bool := i <~ pview (x <~ the_key (h_ref hk) ;; ret (ko_identity x)) ;; ret (n_equals (h_name h) i).
Definition deleteKey (h hk : handle) : km unit :=
  e <~ same_identity h hk ;;
  if negb e then raise ValueError
  else an_none (pcall (FRemoveKey h (h_name hk))) ;;; tpm_delete (h_name hk).
(** key_chain.py 380-392: setDefaultKey *)
Definition setDefaultKey_k (h hk : handle) : km unit :=
  e <~ same_identity h hk ;;
  if negb e then raise ValueError else an_key (pcall (FSetDefaultKey h (h_name hk))) ;;; ret tt.
(** key_chain.py 396-415: addCertificate *)
Definition addCertificate_k (hk : handle) (c : data) : km unit :=
  kn <~ lift (cert_getKeyName (d_name c)) ;;
  b <~ an_bits (pcall (FPublicKey hk)) ;;
  if negb (n_equals (h_name hk) kn) || negb (match d_content c with Some x => zlist_eqb x b | None => false end) then raise ValueError
  else an_none (pcall (FAddCert hk c)).
(** key_chain.py 417-431: deleteCertificate *)
Definition deleteCertificate_k (hk : handle) (n : name) : km unit :=
  v <~ lift (cert_isValidName n) ;; if negb v then raise ValueError else an_none (pcall (FRemoveCert hk n)).
(** key_chain.py 433-446: setDefaultCertificate *)
Definition setDefaultCertificate_k (hk : handle) (c : data) : km unit :=
  addCertificate_k hk c ;;; an_cert (pcall (FSetDefaultCert hk (d_name c))) ;;; ret tt.
(** key_chain.py 622-649: exportSafeBag *)
Definition exportSafeBag (c : data) (pw : option bytes) : km (data * bytes) :=
  k <~ lift (cert_getKeyName (d_name c)) ;;
  b <~ catch any_exn (tpm_export k pw) (raise RuntimeError) ;;
  ret (c, b).
(** key_chain.py 651-726: importSafeBag *)
Definition importSafeBag (c : data) (bag : bytes) (pw : option bytes) (rnd : Z) : km unit :=
  lift (cert_checkFormat c) ;;;
  i <~ lift (cert_getIdentity (d_name c)) ;;
  k <~ lift (cert_getKeyName (d_name c)) ;;
  let bits := x_content c in
  has <~ tpm_has k ;;
  if (has : bool) then raise RuntimeError
  else
    catch is_pib_error (h <~ an_id (pcall (FGetIdentity i)) ;; an_key (pcall (FGetKey h k)) ;;; raise RuntimeError) (ret tt) ;;;
    catch any_exn (tpm_import k bag pw) (raise RuntimeError) ;;;
    sg <~ tpm_sign rnd [1; 2; 3; 4] k DA_SHA256 ;;
    let failed : km unit := tpm_delete k ;;; raise RuntimeError in
    match ktype bits with
    | Err _ => failed
    | Ok _ =>
        match pverify bits [1; 2; 3; 4] (match sg with Some x => x | None => [] end) with
        | Err _ => failed
        | Ok false => failed
        | Ok true =>
            h <~ an_id (pcall (FAddIdentity i)) ;;
            hk <~ an_key (pcall (FAddKey h bits k)) ;;
            an_none (pcall (FAddCert hk c))
        end
    end.

(** ** The calls of a user *)
Inductive kcall : Type :=
  | KRead (o : fcall)
  | KCreateIdentity (i : name) (kp : keyparams) (gen : P) (rs : list bytes) (now rnd : Z)
  | KDeleteIdentity (h : handle) | KDeleteIdentityName (i : name) | KSetDefaultIdentity (h : handle)
  | KCreateKey (h : handle) (kp : keyparams) (gen : P) (rs : list bytes) (now rnd : Z)
  | KDeleteKey (h hk : handle) | KSetDefaultKey (h hk : handle)
  | KAddCertificate (hk : handle) (c : data) | KDeleteCertificate (hk : handle) (n : name) | KSetDefaultCertificate (hk : handle) (c : data)
  | KSelfSign (hk : handle) (now rnd : Z)
  | KImport (c : data) (bag : bytes) (pw : option bytes) (rnd : Z)
  | KSignData (si : signinginfo) (rnd : Z) (d : data)
  | KSignInterest (si : signinginfo) (rnd : Z) (rn : list Z) (i : interest)
  | KSignBuffer (si : signinginfo) (rnd : Z) (m : bytes).
Inductive kanswer : Type := KNone | KAnswer (a : answer) | KHandle (h : handle) | KData (d : data) | KInterest (i : interest) | KBits (b : option bytes).
Definition kout {A} (f : A -> kanswer) (m : km A) : km kanswer := a <~ m ;; ret (f a).
Definition kexec (o : kcall) : km kanswer :=
  match o with
  | KRead o => kout KAnswer (pcall o)
  | KCreateIdentity i kp gen rs now rnd => kout KHandle (createIdentity i kp gen rs now rnd)
  | KDeleteIdentity h => kout (fun _ => KNone) (deleteIdentity h)
  | KDeleteIdentityName i => kout (fun _ => KNone) (deleteIdentityName i)
  | KSetDefaultIdentity h => kout (fun _ => KNone) (setDefaultIdentity_k h)
  | KCreateKey h kp gen rs now rnd => kout KHandle (createKey h kp gen rs now rnd)
  | KDeleteKey h hk => kout (fun _ => KNone) (deleteKey h hk)
  | KSetDefaultKey h hk => kout (fun _ => KNone) (setDefaultKey_k h hk)
  | KAddCertificate hk c => kout (fun _ => KNone) (addCertificate_k hk c)
  | KDeleteCertificate hk n => kout (fun _ => KNone) (deleteCertificate_k hk n)
  | KSetDefaultCertificate hk c => kout (fun _ => KNone) (setDefaultCertificate_k hk c)
  | KSelfSign hk now rnd => kout KData (selfSign hk now rnd)
  | KImport c bag pw rnd => kout (fun _ => KNone) (importSafeBag c bag pw rnd)
  | KSignData si rnd d => kout KData (sign_data si rnd d)
  | KSignInterest si rnd rn i => kout KInterest (sign_interest si rnd rn i)
  | KSignBuffer si rnd m => kout KBits (sign_buffer si rnd m)
  end.
Definition krun (s : kstate) (l : list kcall) : kstate := fold_left (fun s o => fst (kexec o s)) l s.
End Chain.
Arguments k_pib {P} _.
Arguments k_tpm {P} _.
Arguments k_log {P} _.
Arguments KState {P} _ _ _.
Arguments Tpm {P} _ _.
Arguments t_handles {P} _.
Arguments t_keys {P} _.
Arguments k_new {P} _ _.
Arguments KRead {P} _.
Arguments KDeleteIdentity {P} _.
Arguments KDeleteIdentityName {P} _.
Arguments KSetDefaultIdentity {P} _.
Arguments KDeleteKey {P} _ _.
Arguments KSetDefaultKey {P} _ _.
Arguments KAddCertificate {P} _ _.
Arguments KDeleteCertificate {P} _ _.
Arguments KSetDefaultCertificate {P} _ _.
Arguments KSelfSign {P} _ _ _.
Arguments KImport {P} _ _ _ _.
Arguments KSignData {P} _ _ _.
Arguments KSignInterest {P} _ _ _ _.
Arguments KSignBuffer {P} _ _ _.
Arguments KCreateIdentity {P} _ _ _ _ _ _.
Arguments KCreateKey {P} _ _ _ _ _ _.
