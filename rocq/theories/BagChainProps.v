(** * Property C72, with KeyChain: SafeBags move keys *)
From Verif Require Import Base BaseLemmas TlvSpec NameModel NameSpec NameProofs DictModel DictProofs WireModel WireSpec CtlModel SegPubProps CertProofs HierModel HierSpec HierProps PibModel PibSpec PibProps FrontModel FrontSpec FrontProofs FrontProofs5 FrontProps ChainModel ChainSpec ChainProofs ChainProofs2 ChainProofs3 ChainProofs4 ChainProofs5 ChainProofs6 ChainProofs7 ChainProps ChainExamples CmdProps WireProofs5 WireProps BagModel BagProps BagChainModel.
From Coq Require Import ZifyBool.
(** The self-signed certificate of a SafeBag *)
Definition bag_cert (ty : Z) (k : name) (now : Z) (pub : bytes) (bits : option bytes) : data := with_sig (self_data k now pub) (sig_of ty k (vp_setPeriod now (now + YEARS_20)) bits).

Lemma period_ok : forall now, in_time now -> vp_ok (vp_setPeriod now (now + YEARS_20)).
Proof.
  intros now R. unfold in_time in R. right. unfold vp_setPeriod. cbn [vp_notBefore vp_notAfter].
  assert (U : ceil1000 now < now + 1000 /\ now <= ceil1000 now). { unfold ceil1000. pose proof (Z.div_mod (- now) 1000 ltac:(lia)). pose proof (Z.mod_pos_bound (- now) 1000 ltac:(lia)). lia. }
  assert (D : forall x, x - 1000 < floor1000 x <= x). { intros x. unfold floor1000. pose proof (Z.div_mod x 1000 ltac:(lia)). pose proof (Z.mod_pos_bound x 1000 ltac:(lia)). lia. }
  specialize (D (now + YEARS_20)). unfold YEARS_20 in *. split.
  - exists (- (- now / 1000)). split; [unfold ceil1000; lia|]. unfold ceil1000 in U. lia.
  - exists ((now + 20 * 365 * 24 * 3600 * 1000) / 1000). split; [unfold floor1000; lia|]. unfold floor1000 in D. lia.
Qed.
Lemma bag_cert_ok : forall ty k now pub b, in_time now -> name_ok k -> data_ok (bag_cert ty k now pub b).
Proof.
  intros ty k now pub b T N. split; [|split].
  - apply Forall_app. split; [exact N|]. constructor; [apply generic_ok; repeat constructor; unfold is_byte; lia|]. constructor; [apply nonneg_comp; apply T|constructor].
  - split; [left; cbn; lia|]. split; [cbn; lia|]. apply generic_ok. constructor.
  - apply sig_of_ok; [exact N|apply period_ok, T].
Qed.
Lemma bag_cert_seen : forall ty k now pub b, data_seen data_new (bag_cert ty k now pub (Some b)) = bag_cert ty k now pub (Some b).
Proof. intros. apply C18_all_fields; unfold bag_cert, with_sig, sig_of; cbn [d_content d_sig d_meta self_data]; [eexists; reflexivity|destruct (ty =? KT_RSA); eexists; reflexivity|reflexivity|reflexivity|destruct (ty =? KT_RSA); reflexivity]. Qed.
Lemma bag_cert_signed : forall ty k now pub b b', data_signed (bag_cert ty k now pub b) = data_signed (bag_cert ty k now pub b').
Proof. intros. unfold data_signed, bag_cert, with_sig. cbn [d_name d_meta d_content d_sig]. f_equal. unfold sig_of. destruct (ty =? KT_RSA); reflexivity. Qed.

Section K.
Variable P : Type.
Variable derive : P -> bytes.
Variable psign : Z -> P -> bytes -> bytes.
Variable pverify : bytes -> bytes -> bytes -> res bool.
Variable ktype : bytes -> res Z.
Variable sha : bytes -> bytes.
Variable load : bytes -> option bytes -> res P.
Variable dump : P -> option bytes -> bytes.
Variable ord : list name -> list name.
Notation belongs := (belongs P psign pverify).
Notation crypto := (crypto P derive psign pverify ktype sha).
Notation reach := (reach P derive psign pverify ktype sha load ord).
Notation kexec := (kexec P derive psign pverify ktype sha load ord).
Notation private := (private P).
Notation cert := (cert x_name).
Notation sb_ofKey := (sb_ofKey P psign ktype load).

(** SafeBag(keyName, privateKeyBag, publicKeyEncoding, password) makes a certificate with the public
    key that is signed by the private key over its own encoding. *)
Theorem C72_self_signed : forall k bag pub pw now rnd p ty, load bag pw = Ok p -> ktype pub = Ok ty -> ty = KT_RSA \/ ty = KT_EC -> in_time now -> name_ok k ->
  exists b, let c := bag_cert ty k now pub (Some b) in
  sb_ofKey k bag pub pw DA_SHA256 now rnd = Ok (SafeBag c (Some bag)) /\ b = psign rnd p (data_signed c) /\ (belongs pub p -> pverify pub (data_signed c) b = Ok true) /\
  (Forall c_valid k -> a_key k -> pub <> [] -> cert_checkFormat c = Ok tt).
Proof.
  intros k bag pub pw now rnd p ty L T Hty Ti N. exists (psign rnd p (data_signed (bag_cert ty k now pub None))). cbv zeta. rewrite (bag_cert_signed ty k now pub (Some _) None).
  split; [|split; [reflexivity|split; [intros B; apply B|intros V A Np; apply self_check; auto; apply Ti]]].
  unfold BagChainModel.sb_ofKey, make_self. unfold bind at 1, lift. rewrite fromVersion_ok by apply Ti. rewrite T. unfold bind at 1. unfold bind at 1. unfold tpm_import. unfold bind at 1, get. unfold temporary, ChainModel.k_new, din. cbn [k_tpm t_keys t_handles dget dset]. unfold bind at 1, lift. rewrite L. unfold w_tpm, put.
  assert (Z : (if ty =? KT_RSA then ret (SigRsa (KL (Some 1) k None) (vp_setPeriod now (now + YEARS_20))) else if ty =? KT_EC then ret (SigEcdsa (KL (Some 1) k None) (vp_setPeriod now (now + YEARS_20))) else raise ValueError) = @ret (kstate P) _ (fun b => sig_of ty k (vp_setPeriod now (now + YEARS_20)) b)).
  { destruct Hty as [-> | ->]; reflexivity. }
  rewrite Z. unfold bind at 1, ret at 1. fold (self_name k now).
  change (Data (self_name k now) (MI 2 (-1) (Some 3600000) (c_generic [])) (Some pub) (sig_of ty k (vp_setPeriod now (now + YEARS_20)) None)) with (bag_cert ty k now pub None).
  destruct (data_slice _ (bag_cert_ok ty k now pub None Ti N)) as (w1 & b1 & e1 & En1 & Sl1). rewrite En1. unfold bind at 1. cbn [signed_bytes]. rewrite Sl1. unfold bind at 1. unfold tpm_sign at 1. unfold bind at 1. unfold tpm_find. unfold bind at 1, get. cbn [k_tpm t_handles t_keys dget dset]. rewrite eq_refl_n. unfold w_tpm, put, bind at 1, ret. cbn [Z.eqb Pos.eqb DA_SHA256].
  match goal with |- context [encodeData ?d] => change d with (bag_cert ty k now pub (Some (psign rnd p (data_signed (bag_cert ty k now pub None))))) end.
  destruct (data_slice _ (bag_cert_ok ty k now pub (Some (psign rnd p (data_signed (bag_cert ty k now pub None)))) Ti N)) as (w2 & b2 & e2 & En2 & _). rewrite En2. reflexivity.
Qed.

(** Without a valid public key, or a private key that can be loaded, there is no bag. *)
Theorem C72_self_signed_errors : forall k bag pub pw digest now rnd e, 0 <= now ->
  (ktype pub = Err e -> sb_ofKey k bag pub pw digest now rnd = Err e) /\ (forall ty, ktype pub = Ok ty -> load bag pw = Err e -> sb_ofKey k bag pub pw digest now rnd = Err e) /\
  (forall ty p, ktype pub = Ok ty -> load bag pw = Ok p -> ty <> KT_RSA -> ty <> KT_EC -> sb_ofKey k bag pub pw digest now rnd = Err ValueError).
Proof.
  intros k bag pub pw digest now rnd e Hn. unfold BagChainModel.sb_ofKey, make_self. unfold bind at 1 11 21, lift. rewrite fromVersion_ok by exact Hn. split; [|split].
  - intros E. unfold bind. rewrite E. reflexivity.
  - intros ty E L. unfold bind, tpm_import. rewrite E. unfold bind, get, temporary, ChainModel.k_new, din. cbn [k_tpm t_keys dget]. unfold lift. rewrite L. reflexivity.
  - intros ty p E L N1 N2. unfold bind, tpm_import. rewrite E. unfold bind, get, temporary, ChainModel.k_new, din. cbn [k_tpm t_keys dget]. unfold lift. rewrite L. apply Z.eqb_neq in N1, N2. rewrite N1, N2. reflexivity.
Qed.
(** A bag made for a key and imported into a KeyChain without that key, through its encoding: the key
    is there and signs. *)
Theorem C72_into_chain : forall h1 keys1 s1 k bag pub pw now rnd rnd' p ty, crypto -> order ord -> reach h1 keys1 s1 ->
  load bag pw = Ok p -> ktype pub = Ok ty -> belongs pub p -> in_time now -> name_ok k -> Forall c_valid k -> a_key k -> private s1 k = None ->
  exists b, sb_ofKey k bag pub pw DA_SHA256 now rnd = Ok b /\ forall w, sb_wireEncode b = Ok w -> zlen w < 2 ^ 64 -> exists b' s', sb_wireDecode w = Ok b' /\
    kexec (KImport (sb_certificate b') (blob_bytes (sb_key b')) pw rnd') s1 = (s', Ok KNone) /\ getKeyBits (impl (k_pib s')) k = Ok pub /\ private s' k = Some p /\ cert (pib_hist P h1 s') (d_name (sb_certificate b)) = Some (sb_certificate b).
Proof.
  intros h1 keys1 s1 k bag pub pw now rnd rnd' p ty Cr Or R1 L T Hb Ti N V A Np. pose proof Cr as (C1 & C2 & C3 & C4 & C5). destruct (C1 _ _ T) as [Nb Hty].
  destruct (C72_self_signed k bag pub pw now rnd p ty L T Hty Ti N) as (b & E & _ & _ & Ck). cbv zeta in E, Ck. specialize (Ck V A Nb). set (c := bag_cert ty k now pub (Some b)) in *. exists (SafeBag c (Some bag)). split; [exact E|]. intros w Ew Lw.
  pose proof (bag_cert_ok ty k now pub (Some b) Ti N) as Dk. fold c in Dk. rewrite (encode_bag (SafeBag c (Some bag)) Dk) in Ew. injection Ew as <-.
  pose proof (C72_same c bag [] Dk Lw (bag_cert_seen ty k now pub b)) as D. rewrite app_nil_r in D. exists (SafeBag c (Some bag)). cbn [sb_certificate sb_key blob_bytes].
  destruct (reach_ok P derive psign pverify ktype sha load ord h1 keys1 s1 Cr Or R1) as [B Co]. destruct (self_cert k now A) as [Ac Ow].
  assert (Vc : Forall c_valid (d_name c)) by (apply self_valid; [apply Ti|exact V]). assert (Nr : forall kid v x, d_name c <> cert_name [] kid v x). { destruct Ac as (i & kid' & s & v' & Ni & Ei). intros kid v x X. change (d_name c) with (self_name k now) in X. rewrite Ei in X. unfold cert_name in X. apply (f_equal (@length _)) in X. rewrite !app_length in X. destruct i; [congruence|cbn in X; lia]. }
  destruct (import_ok P psign pverify ktype ord Or h1 load C5 s1 c bag pw rnd' B Co Vc Nr) as (s' & r & E' & K & Lv & F & _). change (owner (d_name c)) with (owner (self_name k now)) in F. rewrite Ow in F.
  destruct (F p ty Ck Np L T (Hb _ _)) as (-> & Pb & Pv & Ct). pose proof (reach_step P derive psign pverify ktype sha load ord h1 keys1 s1 (KImport c bag pw rnd') R1 (conj Vc Nr)) as R'. cbn [ChainModel.kexec] in *. unfold kout in *. rewrite (bind_ok _ _ _ _ _ _ _ _ E') in *.
  exists s'. split; [exact D|]. split; [reflexivity|]. destruct (C67_view P derive psign pverify ktype sha load ord h1 keys1 s' k Cr Or R' V) as (X & _). rewrite X, Pb. auto.
Qed.
(** A key exported from one KeyChain, encoded, decoded and imported into another. *)
Theorem C72_transfer : forall h0 keys0 s h1 keys1 s1 c pw bag rnd p ty, crypto -> order ord -> reach h0 keys0 s -> reach h1 keys1 s1 -> (forall q w, load (dump q w) w = Ok q) ->
  Forall c_valid (d_name c) -> (forall kid v w, d_name c <> cert_name [] kid v w) -> cert_checkFormat c = Ok tt -> data_ok c -> data_seen data_new c = c -> let k := owner (d_name c) in
  private s k = Some p -> belongs (x_content c) p -> ktype (x_content c) = Ok ty -> private s1 k = None -> snd (exportSafeBag P dump c pw s) = Ok (c, bag) -> zlen (bag_bytes (SafeBag c (Some bag))) < 2 ^ 64 ->
  exists w b s', sb_wireEncode (SafeBag c (Some bag)) = Ok w /\ sb_wireDecode w = Ok b /\ kexec (KImport (sb_certificate b) (blob_bytes (sb_key b)) pw rnd) s1 = (s', Ok KNone) /\ getKeyBits (impl (k_pib s')) k = Ok (x_content c) /\ private s' k = Some p /\ cert (pib_hist P h1 s') (d_name c) = Some c.
Proof.
  intros h0 keys0 s h1 keys1 s1 c pw bag rnd p ty Cr Or R R1 Hl Vc Nr Ck Dk Ds k Ep Hb Et Np Ex Sz. destruct (C69_transfer P derive psign pverify ktype sha load dump ord h0 keys0 s h1 keys1 s1 c pw bag rnd p ty Cr Or R R1 Hl Vc Nr Ck Ep Hb Et Np Ex) as (s' & E & X).
  exists (bag_bytes (SafeBag c (Some bag))), (SafeBag c (Some bag)), s'. split; [apply (encode_bag (SafeBag c (Some bag)) Dk)|]. split; [pose proof (C72_same c bag [] Dk Sz Ds) as D; rewrite app_nil_r in D; exact D|]. split; [exact E|exact X].
Qed.
End K.

(** The public key given to the constructor is not checked against the private key: the bag can have
    a certificate that its own public key refuses. *)
Theorem C72_unchecked_refuted : ~ (forall k bag pub b, sb_ofKey bool t_sign t_type t_load k bag pub None DA_SHA256 5000 0 = Ok b -> t_verify pub (data_signed (sb_certificate b)) (blob_bytes (sig_bits (d_sig (sb_certificate b)))) = Ok true).
Proof. intros X. specialize (X t_k1 [1] [48; 2]). destruct (C72_self_signed bool t_sign t_verify t_type t_load t_k1 [1] [48; 2] None 5000 0 true KT_RSA eq_refl eq_refl (or_introl eq_refl) ltac:(unfold in_time; lia) t_k1_ok) as (b & E & Eb & _). cbv zeta in E, Eb. specialize (X _ E). cbn [sb_certificate] in X. rewrite Eb in X at 2. cbn [bag_cert with_sig d_sig sig_of Z.eqb KT_RSA sig_bits blob_bytes] in X. change (blob_bytes _) with b in X. unfold t_verify, t_sign in X. discriminate X. Qed.
(** A concrete key: made into a bag, encoded, decoded and imported into the KeyChain of C67. *)
Definition ex_bag : safeBag := SafeBag (bag_cert KT_EC t_k2 5000 [48; 1] (Some (t_sign 3 true (data_signed (bag_cert KT_EC t_k2 5000 [48; 1] None))))) (Some [1]).
Example C72_example : sb_ofKey bool t_sign t_type t_load t_k2 [1] [48; 1] None DA_SHA256 5000 3 = Ok ex_bag /\
  (exists w, sb_wireEncode ex_bag = Ok w /\ sb_wireDecode w = Ok ex_bag /\ zlen w = 213).
Proof. split; [vm_compute; reflexivity|]. eexists. split; [vm_compute; reflexivity|]. split; vm_compute; reflexivity. Qed.
Example C72_example_chain : exists b, sb_ofKey bool t_sign t_type t_load t_k2 [1] [48; 1] None DA_SHA256 5000 3 = Ok b /\ forall w, sb_wireEncode b = Ok w -> zlen w < 2 ^ 64 -> exists b' s', sb_wireDecode w = Ok b' /\
    t_exec (KImport (sb_certificate b') (blob_bytes (sb_key b')) None 4) t_s1 = (s', Ok KNone) /\ getKeyBits (impl (k_pib s')) t_k2 = Ok [48; 1].
Proof.
  destruct (C72_into_chain bool t_derive t_sign t_verify t_type t_sha t_load t_ord [] [] t_s1 t_k2 [1] [48; 1] None 5000 3 4 true KT_EC t_crypto t_order t_reach1 eq_refl eq_refl) as (b & E & F).
  - intros r m. apply t_verify_ok. reflexivity.
  - unfold in_time. lia.
  - apply t_names_ok. reflexivity.
  - apply validb_ok. reflexivity.
  - exists t_alice, (c_generic [50]). split; [discriminate|reflexivity].
  - vm_compute. reflexivity.
  - exists b. split; [exact E|]. intros w Ew Lw. destruct (F w Ew Lw) as (b' & s' & A & B & C & _). exists b', s'. auto.
Qed.
Print Assumptions C72_self_signed.
Print Assumptions C72_self_signed_errors.
Print Assumptions C72_into_chain.
Print Assumptions C72_transfer.
Print Assumptions C72_unchecked_refuted.
