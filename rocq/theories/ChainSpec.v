(** * Specification of KeyChain: what signs, and proper use *)
From Verif Require Import Base TlvSpec NameModel NameSpec DictModel WireModel WireSpec HierModel HierSpec PibModel PibSpec FrontModel FrontSpec ChainModel.

Section S.
Variable P : Type.
Variable derive : P -> bytes.
Variable psign : Z -> P -> bytes -> bytes.
Variable pverify : bytes -> bytes -> bytes -> res bool.
Variable ktype : bytes -> res Z.
Variable sha : bytes -> bytes.
Notation call := (call data).
Notation trace := (trace data).
Notation kcall := (kcall P).
Notation kstate := (kstate P).
Notation hist := (hist x_name).
Notation ident := (ident x_name).
Notation def_id := (def_id x_name).
Notation key_bits := (key_bits x_name x_content).
Notation cert := (cert x_name).
Notation def_key := (def_key x_name x_content).
Notation def_cert := (def_cert x_name).

(** The state of the PIB, by the calls made to it, and of the TPM *)
Definition pib_hist (h0 : list call) (s : kstate) : list call := hist h0 (k_log s).
Definition public (h0 : list call) (s : kstate) (k : name) : option bytes := key_bits (pib_hist h0 s) k.
Definition private (s : kstate) (k : name) : option P := dget n_equals (t_keys (k_tpm s)) k.
(** What getDefaultKey answers: the key it answered before, if it was not removed since then *)
Definition default_key (h0 : list call) (t : trace) (i : name) : option name :=
  match chosen t i with Some k => Some k | None => def_key (hist h0 t) i end.

(** A public key belongs to a private key: it accepts the signatures of the private key. *)
Definition belongs (b : bytes) (p : P) : Prop := forall r m, pverify b m (psign r p m) = Ok true.
(** Every public key of the PIB has its private key in the TPM. *)
Definition coherent (h0 : list call) (s : kstate) : Prop := forall k b, public h0 s k = Some b -> exists p, private s k = Some p /\ belongs b p.
(** Every private key of the TPM has its public key in the PIB. *)
Definition no_orphans (h0 : list call) (s : kstate) : Prop := forall k p, Forall c_valid k -> private s k = Some p -> public h0 s k <> None.

(** ** Who signs *)
Inductive who : Type := Digest | WithKey (k : name) | NoKey | BadName.
Definition by_default (h0 : list call) (t : trace) (i : name) : who := match default_key h0 t i with Some k => WithKey k | None => NoKey end.
Definition by_key (h : list call) (k : name) : who := match key_bits h k with Some _ => WithKey k | None => NoKey end.
Definition signer (h0 : list call) (t : trace) (si : signinginfo) (w : who) : Prop :=
  let h := hist h0 t in
  (si_type si = SI_NULL -> w = match def_id h with None => Digest | Some i => by_default h0 t i end) /\
  (si_type si = SI_ID -> match si_identity si with Some hd => w = by_default h0 t (h_name hd) | None => w = if ident h (si_name si) then by_default h0 t (si_name si) else NoKey end) /\
  (si_type si = SI_KEY ->
     match si_key si with Some hd => w = WithKey (h_name hd) | None => (a_key (si_name si) -> w = by_key h (si_name si)) /\ (~ a_key (si_name si) -> w = BadName) end) /\
  (si_type si = SI_CERT -> (a_cert (si_name si) -> w = by_key h (owner (si_name si))) /\ ((forall i kid s v, si_name si <> cert_name i kid s v) -> w = BadName)) /\
  (si_type si = SI_SHA256 -> w = Digest).
Definition si_proper (t : trace) (si : signinginfo) : Prop :=
  0 <= si_type si <= 4 /\ Forall c_valid (si_name si) /\ si_digest si = DA_SHA256 /\
  (forall hd, si_identity si = Some hd -> live_id t hd) /\ (forall hd, si_key si = Some hd -> live_key t hd) /\
  (si_type si = SI_CERT -> forall kid s v, si_name si <> cert_name [] kid s v).

(** The SignatureInfo of a key of the type [ty]: its name as the key locator, and the whole seconds
    of the requested validity period *)
Definition period_of (si : signinginfo) : validity := if vp_hasPeriod (si_validity si) then vp_setPeriod (vp_notBefore (si_validity si)) (vp_notAfter (si_validity si)) else vp_none.
Definition sig_of (ty : Z) (k : name) (v : validity) (bits : option bytes) : signature :=
  if ty =? KT_RSA then SigRsa (KL (Some 1) k None) v bits else SigEcdsa (KL (Some 1) k None) v bits.
(** The signature [sg] with the bits [bits] that [w] makes of [m] with the randomness [rnd]: it is
    made with the private key of [w] in the TPM, and the public key of [w] in the PIB accepts it. *)
Definition signature_by (h0 : list call) (s : kstate) (si : signinginfo) (w : who) (rnd : Z) (m : bytes) (sg : option bytes -> signature) (bits : bytes) : Prop :=
  match w with
  | Digest => (forall b, sg b = SigDigest b) /\ bits = sha m
  | WithKey k => exists b ty p, public h0 s k = Some b /\ ktype b = Ok ty /\ private s k = Some p /\
      (forall x, sg x = sig_of ty k (period_of si) x) /\ bits = psign rnd p m /\ pverify b m bits = Ok true
  | NoKey | BadName => False
  end.
(** The packets that signing gives *)
Definition with_sig (d : data) (sg : signature) : data := Data (d_name d) (d_meta d) (d_content d) sg.
Definition signed_data (h0 : list call) (s : kstate) (si : signinginfo) (w : who) (rnd : Z) (d : data) (r : res data) : Prop :=
  match w with
  | NoKey => r = Err RuntimeError
  | BadName => r = Err ValueError
  | _ => exists sg bits, r = Ok (with_sig d (sg (Some bits))) /\ signature_by h0 s si w rnd (data_signed (with_sig d (sg (Some bits)))) sg bits
  end.
Definition signed_buffer (h0 : list call) (s : kstate) (si : signinginfo) (w : who) (rnd : Z) (m : bytes) (r : res (option bytes)) : Prop :=
  match w with
  | NoKey => r = Err RuntimeError
  | BadName => r = Err ValueError
  | _ => exists sg bits, r = Ok (Some bits) /\ signature_by h0 s si w rnd m sg bits
  end.
(** The signature of an Interest is in two components added to its name, and signs the components
    before the last one. *)
Definition signed_interest (h0 : list call) (s : kstate) (si : signinginfo) (w : who) (rnd : Z) (i : interest) (r : res interest) : Prop :=
  match w with
  | NoKey => r = Err RuntimeError
  | BadName => r = Err ValueError
  | _ => exists sg bits, r = Ok (i_setName i (i_name i ++ [c_generic (siginfo (sg None)); c_generic (tlv 23 bits)])) /\
           signature_by h0 s si w rnd (elems (map comp_el (i_name i ++ [c_generic (siginfo (sg None))]))) sg bits
  end.
(** What can be encoded *)
Definition signable (si : signinginfo) (w : who) : Prop := vp_ok (period_of si) /\ forall k, w = WithKey k -> name_ok k.

(** The id of a new key: the one asked for, the hash of the public key, or the first random one;
    it is not in use. *)
Definition new_id (s : kstate) (i : name) (kp : keyparams) (gen : P) (rs : list bytes) (c : comp) : Prop :=
  (kp_type kp = KT_RSA \/ kp_type kp = KT_EC) /\ private s (key_name i c) = None /\
  ((kp_idType kp = KI_USER /\ c = kp_id kp) \/
   (kp_idType kp = KI_SHA256 /\ c = c_generic (sha (derive gen))) \/
   (kp_idType kp = KI_RANDOM /\ exists rs1 r rs2, rs = rs1 ++ r :: rs2 /\ c = c_generic r /\ r <> [] /\ Forall (fun x => private s (key_name i (c_generic x)) <> None) rs1)).
(** The certificate that selfSign makes of the key [k] at the time [now], and how it is signed *)
Definition self_name (k : name) (now : Z) : name := k ++ [self_comp; c_generic (253 :: nonneg now)].
Definition self_data (k : name) (now : Z) (bits : bytes) : data := Data (self_name k now) (MI 2 (-1) (Some 3600000) (c_generic [])) (Some bits) (SigRsa kl_empty vp_none None).
Definition self_info (hk : handle) (now : Z) : signinginfo := si_setValidity (si_ofPibKey hk) (vp_setPeriod now (now + YEARS_20)).
(** until the year 9999 *)
Definition in_time (now : Z) : Prop := 0 <= now < 253402300800 * 1000 - 20 * 366 * 24 * 3600 * 1000.

(** ** Proper use: handles are live, names are valid, the clock is past 1970, the key id given by
    the hash of a new key is new, and a certificate does not replace a different one. *)
Definition params_proper (s : kstate) (i : name) (kp : keyparams) (gen : P) (rs : list bytes) (now : Z) : Prop :=
  i <> [] /\ c_valid (kp_id kp) /\ Forall bytes_ok rs /\ 0 <= now /\ (kp_idType kp = KI_SHA256 -> private s (key_name i (c_generic (sha (derive gen)))) = None).
Definition cert_proper (h0 : list call) (s : kstate) (hk : handle) (c : data) : Prop :=
  Forall c_valid (d_name c) /\ (owner (d_name c) = h_name hk -> cert_checkFormat c = Ok tt /\ forall x, cert (pib_hist h0 s) (d_name c) = Some x -> x = c).
Definition reads (o : fcall data) : Prop :=
  match o with FGetIdentity _ | FDefaultIdentity | FGetKey _ _ | FDefaultKey _ | FGetCert _ _ | FDefaultCert _ | FPublicKey _ => True | _ => False end.
Definition kproper (h0 : list call) (s : kstate) (o : kcall) : Prop :=
  let t := k_log s in
  match o with
  | KRead o => reads o /\ proper x_name x_content x_check ktype h0 t o
  | KCreateIdentity i kp gen rs now _ => Forall c_valid i /\ params_proper s i kp gen rs now
  | KDeleteIdentity h | KSetDefaultIdentity h => live_id t h
  | KDeleteIdentityName i => Forall c_valid i
  | KCreateKey h kp gen rs now _ => live_id t h /\ params_proper s (h_name h) kp gen rs now
  | KDeleteKey h hk | KSetDefaultKey h hk => live_id t h /\ live_key t hk
  | KAddCertificate hk c | KSetDefaultCertificate hk c => live_key t hk /\ cert_proper h0 s hk c
  | KDeleteCertificate hk n => live_key t hk /\ Forall c_valid n
  | KSelfSign hk now _ => live_key t hk /\ 0 <= now /\ forall v, c_fromVersion now = Ok v -> cert (pib_hist h0 s) (h_name hk ++ [self_comp; v]) = None
  | KImport c _ _ _ => Forall c_valid (d_name c) /\ forall kid s v, d_name c <> cert_name [] kid s v
  | KSignData si _ _ | KSignInterest si _ _ _ | KSignBuffer si _ _ => si_proper t si
  end.

(** ** What is assumed of the cryptography: a public key that can be decoded is an RSA or an EC
    key, the public key of a private key can be decoded and accepts its signatures, a hash is made
    of bytes, and a public key that accepts one signature of the test of importSafeBag accepts all
    signatures of that private key. *)
Definition crypto : Prop :=
  (forall b t, ktype b = Ok t -> b <> [] /\ (t = KT_RSA \/ t = KT_EC)) /\ (forall p, exists t, ktype (derive p) = Ok t) /\
  (forall p, belongs (derive p) p) /\ (forall m, bytes_ok (sha m)) /\
  (forall b r p, pverify b [1; 2; 3; 4] (psign r p [1; 2; 3; 4]) = Ok true -> belongs b p).
(** ** The histories of a KeyChain, from a PIB made by [h0] and a TPM with the keys [keys0] *)
Variable load : bytes -> option bytes -> res P.
Variable ord : list name -> list name.
Notation kexec := (kexec P derive psign pverify ktype sha load ord).
Fixpoint all_kproper (h0 : list call) (s : kstate) (l : list kcall) : Prop :=
  match l with [] => True | o :: l' => kproper h0 s o /\ all_kproper h0 (fst (kexec o s)) l' end.
Definition begin (h0 : list call) (keys0 : dict name P) : kstate := k_new (run x_name x_content x_check ord (rev h0)) keys0.
Definition begins (h0 : list call) (keys0 : dict name P) : Prop :=
  usable x_name x_content x_check ktype h0 /\ Forall (fun e => Forall c_valid (fst e)) keys0 /\ NoDup (map fst keys0) /\ coherent h0 (begin h0 keys0).
Definition reach (h0 : list call) (keys0 : dict name P) (s : kstate) : Prop :=
  begins h0 keys0 /\ exists l, all_kproper h0 (begin h0 keys0) l /\ s = krun P derive psign pverify ktype sha load ord (begin h0 keys0) l.
End S.
