(** * Model of AccessManagerV2 (python/pyndn/encrypt/access_manager_v2.py), over the KeyChain of
    ChainModel.  Registering the prefixes with the Face is not modelled. *)
From Verif Require Import Base NameModel DictModel WireModel CtlModel HierModel PibModel FrontModel BagModel ChainModel StoreModel NacModel EncModel.
Local Open Scope sm_scope.

(** access_manager_v2.py 153-164: the secret that protects the KDK, from the random bytes [raw] *)
Definition am_secret (raw : bytes) : bytes := map (fun b => Z.land (if b =? 0 then 1 else b) 127) raw.

Section Am.
Variable P : Type.
Variable derive : P -> bytes.
Variable psign : Z -> P -> bytes -> bytes.
Variable ktype : bytes -> res Z.
Variable sha : bytes -> bytes.
Variable dump : P -> option bytes -> bytes.
Variable ord : list name -> list name.
Variable penc : Z -> bytes -> bytes -> res bytes.
Notation kstate := (kstate P).
Notation km := (sm kstate).
Notation pcall := (pcall P ktype ord).
Notation createIdentity := (createIdentity P derive psign ktype sha ord).
Notation createKey := (createKey P derive psign ktype sha ord).
Notation sign_data := (sign_data P psign ktype sha ord).
(** 71-77, 91: the fields; [am_id] is the PibIdentity that signs, [am_key] the NAC key *)
Record am : Type := Am { am_id : handle; am_key : handle; am_store : dict name data }.
(** RsaKeyParams(): a random key id *)
Definition rsa_params : keyparams := KeyParams KT_RSA KI_RANDOM (c_generic []).
(** 102, 183: insert to the storage *)
Definition am_insert (a : am) (d : data) : km am := n <~ lift (full_name sha d) ;; ret (Am (am_id a) (am_key a) (dset n_equals (am_store a) n d)).
(** 93-101: the KEK Data, from the default certificate of the NAC key; PibKey.getIdentityName is the
    name of the key without its last two components (pib_key.py) *)
Definition am_kek (i hk : handle) (rnd : Z) : km data :=
  kid <~ lift (py_getitem (h_name hk) (-1)) ;;
  nac <~ lift (n_getPrefix (h_name hk) (-2)) ;;
  c <~ an_cert P (pcall (FDefaultCert hk)) ;;
  sign_data (si_ofPibIdentity i) rnd (Data (nac ++ [N_KEK] ++ [kid]) (MI (mi_type (d_meta c)) (mi_other (d_meta c)) (Some 3600000) (mi_final (d_meta c))) (d_content c) (d_sig c)).
(** 71-128: the constructor; [gen], [rs], [now] and [rnd] are for a new identity, [gen2] ... if its
    default key is not an RSA key *)
Definition am_new (i : handle) (dataset : name) (gen : P) (rs : list bytes) (now rnd : Z) (gen2 : P) (rs2 : list bytes) (now2 rnd2 rnd3 : Z) : km am :=
  h <~ createIdentity (h_name i ++ [N_NAC] ++ dataset) rsa_params gen rs now rnd ;;
  hk0 <~ an_key P (pcall (FDefaultKey h)) ;;
  b <~ an_bits P (pcall (FPublicKey hk0)) ;;
  ty <~ lift (ktype b) ;;
  hk <~ (if negb (ty =? KT_RSA) then createKey h rsa_params gen2 rs2 now2 rnd2 else ret hk0) ;;
  d <~ am_kek i hk rnd3 ;;
  am_insert (Am i hk []) d.
(** 134-185: addMember; [raw] are the random bytes of the secret, [r] is for the encryption and [rnd]
    for the signature *)
Definition am_kdk (i hk : handle) (member : data) (raw : bytes) (r rnd : Z) : km data :=
  nac <~ lift (n_getPrefix (h_name hk) (-2)) ;;
  kid <~ lift (py_getitem (h_name hk) (-1)) ;;
  mk <~ lift (cert_getKeyName (d_name member)) ;;
  let secret := am_secret raw in
  c <~ an_cert P (pcall (FDefaultCert hk)) ;;
  cb <~ exportSafeBag P dump c (Some secret) ;;
  pub <~ lift (to_bytes (d_content member)) ;;
  w <~ lift (sb_wireEncode (SafeBag (fst cb) (Some (snd cb)))) ;;
  pk <~ lift (penc r pub secret) ;;
  sign_data (si_ofPibIdentity i) rnd (Data (nac ++ [N_KDK; kid; N_ENCRYPTED_BY] ++ mk) (MI 0 (-1) (Some 3600000) (c_generic [])) (Some (encodeEncryptedContentV2 (EC None kl_empty None (Some w) (Some pk)))) (SigRsa kl_empty vp_none None)).
Definition am_addMember (a : am) (member : data) (raw : bytes) (r rnd : Z) : km (am * data) :=
  d <~ am_kdk (am_id a) (am_key a) member raw r rnd ;;
  a' <~ am_insert a d ;;
  ret (a', d).
(** 104-112: serveFromStorage *)
Definition am_serve (a : am) (n : name) : option data := st_find (am_store a) n.
End Am.
