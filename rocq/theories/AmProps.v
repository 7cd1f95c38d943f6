(** * C76: AccessManagerV2, and the whole flow of name-based access control *)
From Verif Require Import Base BaseLemmas TlvSpec TlvDecProofs NameModel NameSpec NameProofs DictModel DictProofs WireModel WireSpec WireProofs WireProofs5 WireProps CtlModel CtlSpec CtlProps CertProofs HierModel HierSpec HierProps PibModel PibSpec PibProps FrontModel FrontSpec FrontProofs FrontProofs5 BagModel BagProps ChainModel ChainSpec ChainProofs ChainProofs2 ChainProofs3 ChainProofs4 ChainProofs5 ChainProofs6 ChainProofs7 ChainProps BagChainModel BagChainProps StoreModel StoreSpec StoreProps CmdProps NacModel NacSpec NacProofs NacProofs3 NacExamples EncModel EncSpec EncProps EncExamples AmModel AmSpec AmProofs.

Section A.
Variable P : Type.
Variable derive : P -> bytes.
Variable psign : Z -> P -> bytes -> bytes.
Variable pverify : bytes -> bytes -> bytes -> res bool.
Variable ktype : bytes -> res Z.
Variable sha : bytes -> bytes.
Variable load : bytes -> option bytes -> res P.
Variable dump : P -> option bytes -> bytes.
Variable ord : list name -> list name.
Variable pdec : P -> bytes -> res bytes.
Variable penc : Z -> bytes -> bytes -> res bytes.
Variable cbc cbc_inv : bytes -> bytes -> bytes -> res bytes.
Notation kstate := (kstate P).
Notation crypto := (crypto P derive psign pverify ktype sha).
Notation reach := (reach P derive psign pverify ktype sha load ord).
Notation belongs := (belongs P psign pverify).
Notation private := (private P).
Notation Hist h0 s := (pib_hist P h0 s).
Notation signature_by := (signature_by P psign pverify ktype sha).
Notation unchanged := (unchanged P).
Notation am_kek := (am_kek P psign ktype sha ord).
Notation am_kdk := (am_kdk P psign ktype sha dump ord penc).
Notation dkey h0 s i := (default_key h0 (k_log s) i).
Notation d_run cr := (d_run P psign pverify ktype load ord pdec cbc_inv cr).

(** The Data [d] is signed with the default key of the identity [i]. *)
Definition signed_by (h0 : list (call data)) (s : kstate) (i : handle) (rnd : Z) (d : data) : Prop :=
  exists sk sg bits, dkey h0 s (h_name i) = Some sk /\ d_sig d = sg (Some bits) /\ signature_by h0 s (si_ofPibIdentity i) (WithKey sk) rnd (data_signed d) sg bits.
(** The KeyChain has the NAC key nac / KEY / kid with the private key [p] and the default certificate [c]. *)
Definition nac_key (h0 : list (call data)) (s : kstate) (hk : handle) (nac : name) (kid : comp) (p : P) (c : data) : Prop :=
  h_name hk = key_name nac kid /\ live_key (k_log s) hk /\ private s (key_name nac kid) = Some p /\ belongs (x_content c) p /\
  exists n, def_cert x_name (Hist h0 s) (key_name nac kid) = Some n /\ cert x_name (Hist h0 s) n = Some c.
(** The identity can sign. *)
Definition signs (h0 : list (call data)) (s : kstate) (i : handle) : Prop := live_id (k_log s) i /\ exists sk, dkey h0 s (h_name i) = Some sk /\ name_ok sk.

(** The KeyChain [s'] has the same keys, certificates and defaults as [s], after more calls. *)
Definition same_chain (h0 : list (call data)) (keys0 : dict name P) (s s' : kstate) : Prop := reach h0 keys0 s' /\ quiet P h0 s s'.
Lemma same_trans : forall h0 keys0 a b c, same_chain h0 keys0 a b -> same_chain h0 keys0 b c -> same_chain h0 keys0 a c.
Proof. intros h0 keys0 a b c [_ Q] [R Q']. split; [exact R|]. eapply quiet_trans; eassumption. Qed.
Lemma same_signs : forall h0 keys0 s s' i, same_chain h0 keys0 s s' -> signs h0 s i -> signs h0 s' i.
Proof. intros h0 keys0 s s' i [_ Q] (L & sk & E & N). split; [apply Q, L|]. exists sk. rewrite (quiet_dkey P h0 _ _ _ Q). auto. Qed.
Lemma same_nac : forall h0 keys0 s s' hk nac kid p c, same_chain h0 keys0 s s' -> nac_key h0 s hk nac kid p c -> nac_key h0 s' hk nac kid p c.
Proof. intros h0 keys0 s s' hk nac kid p c [_ Q] (N & L & Pv & Be & X). split; [exact N|]. split; [apply Q, L|]. split; [rewrite (quiet_private P h0 _ _ _ Q); exact Pv|]. split; [exact Be|]. unfold pib_hist in *. rewrite (quiet_hist P h0 _ _ Q). exact X. Qed.
Lemma same_signed : forall h0 keys0 s s' i rnd d, same_chain h0 keys0 s s' -> signed_by h0 s' i rnd d -> signed_by h0 s i rnd d.
Proof.
  intros h0 keys0 s s' i rnd d [_ Q] (sk & sg & bits & E & Es & b & ty & p & G1 & G2 & G3 & G4). exists sk, sg, bits. rewrite (quiet_dkey P h0 _ _ _ Q) in E. split; [exact E|]. split; [exact Es|]. exists b, ty, p.
  unfold ChainSpec.public, pib_hist in *. rewrite (quiet_hist P h0 _ _ Q) in G1. rewrite (quiet_private P h0 _ _ sk Q) in G3. auto.
Qed.
(** Reading the PIB *)
Lemma read_same : forall h0 keys0 s o s' r, crypto -> order ord -> reach h0 keys0 s -> reads o -> FrontSpec.proper x_name x_content x_check ktype h0 (k_log s) o -> pcall P ktype ord o s = (s', r) -> quiet P h0 s s' -> same_chain h0 keys0 s s'.
Proof.
  intros h0 keys0 s o s' r Cr Or R Rd Pr E Q. split; [|exact Q]. pose proof (reach_step P derive psign pverify ktype sha load ord h0 keys0 s (KRead o) R (conj Rd Pr)) as X. cbn [ChainModel.kexec] in X. unfold kout, bind in X. rewrite E in X. destruct r; exact X.
Qed.
Lemma sign_step : forall h0 keys0 s i rnd d, crypto -> order ord -> reach h0 keys0 s -> signs h0 s i -> name_ok (d_name d) -> mi_ok (d_meta d) ->
  exists s' sg, sign_data P psign ktype sha ord (si_ofPibIdentity i) rnd d s = (s', Ok (with_sig d sg)) /\ signed_by h0 s i rnd (with_sig d sg) /\ same_chain h0 keys0 s s'.
Proof.
  intros h0 keys0 s i rnd d Cr Or R (Li & sk & Ek & Ns) Nd Md. destruct (reach_ok _ _ _ _ _ _ _ _ h0 keys0 s Cr Or R) as [B Co]. destruct (live_id_val P ktype h0 s i B Li) as [Vi _].
  assert (Ps : si_proper (k_log s) (si_ofPibIdentity i)). { unfold si_proper, si_ofPibIdentity. cbn [si_type si_name si_digest si_identity si_key]. unfold SI_ID, SI_CERT. split; [lia|]. split; [exact Vi|]. split; [reflexivity|]. split; [intros hd [= <-]; exact Li|]. split; [intros hd X; discriminate X|lia]. }
  assert (W : signer h0 (k_log s) (si_ofPibIdentity i) (WithKey sk)). { unfold signer, si_ofPibIdentity, by_default. cbn [si_type si_identity]. unfold SI_NULL, SI_ID, SI_KEY, SI_CERT, SI_SHA256. split; [lia|]. split; [intros _; rewrite Ek; reflexivity|]. split; [lia|]. split; lia. }
  assert (Sa : signable (si_ofPibIdentity i) (WithKey sk)). { split; [left; reflexivity|]. intros k [= <-]. exact Ns. }
  pose proof Cr as (C1 & _). destruct (sign_data_ok P psign pverify ktype sha ord Or (Hkt7 ktype C1) h0 s _ _ rnd d B Co Ps W Sa Nd Md) as (s' & r & E & B' & Q' & (sg & bits & -> & G)).
  exists s', (sg (Some bits)). split; [exact E|]. split; [exists sk, sg, bits; auto|]. split; [|exact Q']. pose proof (reach_step P derive psign pverify ktype sha load ord h0 keys0 s (KSignData (si_ofPibIdentity i) rnd d) R Ps) as X. cbn [ChainModel.kexec] in X. unfold kout, bind in X. rewrite E in X. exact X.
Qed.
Lemma default_cert_step : forall h0 keys0 s hk nac kid p c, crypto -> order ord -> reach h0 keys0 s -> nac_key h0 s hk nac kid p c ->
  exists s', an_cert P (pcall P ktype ord (FDefaultCert hk)) s = (s', Ok c) /\ same_chain h0 keys0 s s' /\ owner (d_name c) = key_name nac kid /\ Forall c_valid (d_name c) /\ cert_checkFormat c = Ok tt /\ nac <> [].
Proof.
  intros h0 keys0 s hk nac kid p c Cr Or R (Nk & Lk & Pv & Be & n & Dc & Ct). destruct (reach_ok _ _ _ _ _ _ _ _ h0 keys0 s Cr Or R) as [B Co].
  destruct (r_default_cert P ktype ord Or h0 s hk B Lk) as (s1 & B1 & Q1 & X). rewrite Nk in X. unfold pib_hist in Dc, Ct. rewrite Dc in X. destruct X as (c' & Ec' & X). assert (c' = c) by congruence. subst c'.
  exists s1. split; [apply an_cert_ok, X|]. split; [exact (read_same h0 keys0 s (FDefaultCert hk) s1 _ Cr Or R Logic.I Lk X Q1)|].
  destruct (spec_closed x_name x_content x_check _ (base_sane P ktype h0 s B)) as (_ & _ & C3 & _ & C5). destruct (C5 _ _ Dc) as [On _]. destruct (C3 _ _ Ct) as (Nc & _ & Vn & Ck & _). change (x_name c) with (d_name c) in Nc. rewrite Nc. split; [exact On|]. split; [exact Vn|]. split; [exact Ck|].
  destruct (live_key_val P ktype h0 s hk B Lk) as (ko & _ & (i & k' & Ni & Ei) & _). rewrite Nk in Ei. apply (f_equal owner) in Ei. rewrite !owner_key in Ei. congruence.
Qed.
Lemma get_kid : forall nac kid, py_getitem (key_name nac kid) (-1) = Ok kid. Proof. intros. apply get_last1. Qed.
Lemma get_nac : forall nac kid, n_getPrefix (key_name nac kid) (-2) = Ok nac. Proof. intros. apply get_prefix2. Qed.
Lemma fresh_ok : float_ok (Some 3600000). Proof. cbn. lia. Qed.

(** ** The KEK Data: the public key of the NAC key, under identity / KEK / id, signed by the identity *)
Theorem C76_kek : forall h0 keys0 s i hk nac kid p c pub rnd, crypto -> order ord -> reach h0 keys0 s -> signs h0 s i -> nac_key h0 s hk nac kid p c -> d_content c = Some pub ->
  name_ok (kek_name nac kid) -> mi_ok (d_meta c) ->
  exists s' d, am_kek i hk rnd s = (s', Ok d) /\ kek_data nac kid pub d /\ mi_ok (d_meta d) /\ signed_by h0 s i rnd d /\ same_chain h0 keys0 s s'.
Proof.
  intros h0 keys0 s i hk nac kid p c pub rnd Cr Or R Si Nc Ec Nn Mc. destruct (default_cert_step h0 keys0 s hk nac kid p c Cr Or R Nc) as (s1 & X & Sm & _). pose proof (same_signs _ _ _ _ i Sm Si) as Si1. pose proof (proj1 Sm) as R1.
  unfold AmModel.am_kek. destruct Nc as (Nk & _). rewrite Nk, get_kid, get_nac. rewrite (bind_ok _ _ _ (lift (Ok kid)) _ s s kid eq_refl), (bind_ok _ _ _ (lift (Ok nac)) _ s s nac eq_refl), (bind_ok _ _ _ _ _ _ _ _ X).
  assert (M : mi_ok (MI (mi_type (d_meta c)) (mi_other (d_meta c)) (Some 3600000) (mi_final (d_meta c)))). { destruct Mc as (M1 & _ & M3). split; [exact M1|]. split; [apply fresh_ok|exact M3]. }
  destruct (sign_step h0 keys0 s1 i rnd (Data (nac ++ [N_KEK] ++ [kid]) (MI (mi_type (d_meta c)) (mi_other (d_meta c)) (Some 3600000) (mi_final (d_meta c))) (d_content c) (d_sig c)) Cr Or R1 Si1 Nn M) as (s' & sg & E & Sg & Sm').
  do 2 eexists. split; [exact E|]. split; [split; [reflexivity|exact Ec]|]. split; [exact M|]. split; [eapply same_signed; eassumption|]. eapply same_trans; eassumption.
Qed.
(** ** The KDK Data: for the member only *)
Theorem C76_kdk : forall h0 keys0 s i hk nac kid p c member mpub raw r pk rnd, crypto -> order ord -> reach h0 keys0 s -> signs h0 s i -> nac_key h0 s hk nac kid p c -> data_ok c ->
  d_content member = Some mpub -> penc r mpub (am_secret raw) = Ok pk -> name_ok (kdk_data_name nac kid (owner (d_name member))) ->
  exists s' d, am_kdk i hk member raw r rnd s = (s', Ok d) /\ kdk_data penc nac kid (owner (d_name member)) mpub c (dump p (Some (am_secret raw))) (am_secret raw) d /\ mi_ok (d_meta d) /\ signed_by h0 s i rnd d /\ same_chain h0 keys0 s s'.
Proof.
  intros h0 keys0 s i hk nac kid p c member mpub raw r pk rnd Cr Or R Si Nc Dk Em Ep Nn. destruct (default_cert_step h0 keys0 s hk nac kid p c Cr Or R Nc) as (s1 & X & Sm & On & _). pose proof (same_signs _ _ _ _ i Sm Si) as Si1. pose proof (proj1 Sm) as R1. pose proof (same_nac _ _ _ _ _ _ _ _ _ Sm Nc) as (_ & _ & Pv & _).
  unfold AmModel.am_kdk. destruct Nc as (Nk & _). rewrite Nk, get_kid, get_nac, getKeyName_owner. rewrite (bind_ok _ _ _ (lift (Ok nac)) _ s s nac eq_refl), (bind_ok _ _ _ (lift (Ok kid)) _ s s kid eq_refl), (bind_ok _ _ _ (lift (Ok (owner (d_name member)))) _ s s _ eq_refl). cbv zeta. rewrite (bind_ok _ _ _ _ _ _ _ _ X).
  assert (Ex : exportSafeBag P dump c (Some (am_secret raw)) s1 = (s1, Ok (c, dump p (Some (am_secret raw))))). { unfold exportSafeBag. rewrite getKeyName_owner, On. unfold bind, lift, catch, tpm_export, bind, get. unfold ChainSpec.private in Pv. rewrite Pv. reflexivity. }
  rewrite (bind_ok _ _ _ _ _ _ _ _ Ex). cbn [fst snd]. rewrite Em. cbn [to_bytes]. rewrite (bind_ok _ _ _ (lift (Ok mpub)) _ s1 s1 _ eq_refl). rewrite (encode_bag (SafeBag c (Some (dump p (Some (am_secret raw)))))) by exact Dk. rewrite (bind_ok _ _ _ (lift (Ok (bag_bytes (SafeBag c (Some (dump p (Some (am_secret raw)))))))) _ s1 s1 _ eq_refl). rewrite Ep. rewrite (bind_ok _ _ _ (lift (Ok pk)) _ s1 s1 _ eq_refl).
  assert (M : mi_ok (MI 0 (-1) (Some 3600000) (c_generic []))). { split; [cbn; lia|]. split; [apply fresh_ok|]. apply generic_ok. constructor. }
  match goal with |- context [sign_data _ _ _ _ _ _ _ ?d] => destruct (sign_step h0 keys0 s1 i rnd d Cr Or R1 Si1 Nn M) as (s' & sg & E & Sg & Sm') end.
  do 2 eexists. split; [exact E|]. split; [|split; [exact M|]; split; [eapply same_signed; eassumption|eapply same_trans; eassumption]]. split; [reflexivity|]. exists r, pk. eexists. split; [exact Ep|]. split; [apply (encode_bag (SafeBag c _)), Dk|reflexivity].
Qed.

(** ** Reading: a member decrypts what a producer encrypted *)
Lemma encode_ec2 : forall w pk, encodeEncryptedContentV2 (EC None kl_empty None (Some w) pk) = ec2_bytes (EC None kl_empty None (Some w) pk).
Proof.
  intros w pk. unfold encodeEncryptedContentV2, ec2_bytes. cbn [ec_keyLocator kl_empty kl_type kl_name_opt ec_iv ec_payload ec_payloadKey option_map opt_el]. rewrite !opt_blob_els by lia. rewrite blob_els by lia.
  match goal with |- _ (zlen ?b) _ = _ => pose proof (e_TL_tlv 130 b [] ltac:(lia)) as Q end. rewrite !app_nil_r in Q. rewrite !app_nil_r. rewrite Q. f_equal.
  rewrite elems_one, (elems_cons 132), !elems_app. reflexivity.
Qed.
Lemma decode_ec2 : forall w pk, (forall x, pk = Some x -> x <> []) -> zlen (encodeEncryptedContentV2 (EC None kl_empty None (Some w) pk)) < 2 ^ 64 ->
  decode_content (Some (encodeEncryptedContentV2 (EC None kl_empty None (Some w) pk))) = Ok (EC None kl_empty None (Some w) pk).
Proof.
  intros w pk N L. assert (X : forall n, kl_name_opt (ec_keyLocator (EC None kl_empty None (Some w) pk)) = Some n -> name_ok n) by (intros n E; discriminate E). rewrite encode_ec2 in *. destruct (C23_round_trip_v2 _ X L) as [_ D].
  unfold decode_content. cbn [to_bytes rbind]. rewrite D. cbn. destruct pk as [[|b x]|]; [exfalso; apply (N _ eq_refl eq_refl)|reflexivity|reflexivity].
Qed.
(** For every history of the decryptor and of its KeyChain: a content key (CK) that it does not
    know, published with the KEK of a NAC key that it does not know, and the KDK Data for its own key
    give the plain text, with one Interest for the CK and one for the KDK. *)
Theorem C76_read : forall h0 keys0 s req m k bits iv w kek ck kdk nac kid pub c key secret p cr mpub mp ty a b cred rnd rnd' x,
  crypto -> order ord -> rsa_law psign pverify penc pdec -> aes_law cbc cbc_inv -> reach h0 keys0 (d_chain s) ->
  e_encrypt cbc k bits iv m = Ok w -> kek_data nac kid pub kek -> ck_data penc k bits kek ck -> kdk_data penc nac kid cr mpub c key secret kdk ->
  zlen (blob_bytes (d_content ck)) < 2 ^ 64 -> zlen (blob_bytes (d_content kdk)) < 2 ^ 64 -> zlen (bag_bytes (SafeBag c (Some key))) < 2 ^ 64 ->
  load key (Some secret) = Ok p -> belongs pub p -> d_content c = Some pub -> ktype pub = Ok ty -> belongs mpub mp ->
  cert_checkFormat c = Ok tt -> data_ok c -> data_seen data_new c = c -> Forall c_valid (d_name c) -> owner (d_name c) = key_name nac kid -> nac <> [] ->
  dget n_equals (d_keys s) k = None -> private (d_chain s) (key_name nac kid) = None ->
  d_out (d_run cr s [EDecrypt req w (Some a); EData a ck cred rnd (Some b); EData b kdk (member_key pdec mp) rnd' x]) =
  d_out s ++ [Send a k true false; Send b (kdk_data_name nac kid cr) false true; Answer req (Success m)].
Proof.
  intros h0 keys0 s req m k bits iv w kek ck kdk nac kid pub c key secret p cr mpub mp ty a b cred rnd rnd' x Cr Or Rl Al R Ew [K1 K2] (D1 & pub' & r1 & ct & D2 & D3 & D4) (F1 & r2 & pk & wb & F2 & F3 & F4) Z1 Z2 Z3 Ld Be Ec Ty Bm Ck Dk Ds Vc Ow Nn Hk Pn.
  assert (pub' = pub) by congruence. subst pub'. destruct (reach_ok _ _ _ _ _ _ _ _ h0 keys0 _ Cr Or R) as [B Co]. destruct (Rl _ _ _ _ _ Be D3) as [E3 _]. destruct (Rl _ _ _ _ _ Bm F2) as [G2 Npk].
  unfold e_encrypt, aes_encrypt in Ew. destruct (cbc bits iv (aes_pad m)) as [cw|] eqn:Ecbc; [|discriminate Ew]. cbn [rbind] in Ew. injection Ew as <-. set (e := EC None (KL (Some 1) k None) (Some iv) (Some cw) None).
  unfold NacModel.d_run. cbn [fold_left].
  destruct (step_decrypt P psign pverify ktype load ord pdec cbc_inv cr s req e a k iv eq_refl eq_refl eq_refl Hk) as (ks & E1 & H1). rewrite E1. clear E1.
  set (s1 := DState ks _ (d_chain s) _). assert (Ks : Forall c_valid (kdk_key_name nac kid)) by (change (kdk_key_name nac kid) with (key_name nac kid); rewrite <- Ow; apply owner_val, Vc).
  destruct (step_ck P psign pverify ktype load ord pdec cbc_inv cr h0 s1 req a b ck cred rnd k nac kid [(req, e)] N_RETRIES Or B Co Ks Nn Pn) as (ks2 & pd2 & ch2 & E2 & H2 & H2' & B2 & Q2).
  { cbn [s1 d_pend]. apply dget_dset, Z.eqb_refl. } { exact H1. } { rewrite D1, K1. reflexivity. }
  rewrite E2. clear E2. set (s2 := DState ks2 pd2 ch2 _). rewrite (encode_bag (SafeBag c (Some key)) Dk) in F3. injection F3 as <-. rewrite D4 in Z1. rewrite F4 in Z2. cbn [blob_bytes] in Z1, Z2.
  rewrite (step_kdk P derive psign pverify ktype sha load ord pdec cbc_inv cr h0 s2 req b ck kdk (member_key pdec mp) rnd' k nac kid [(req, e)] N_RETRIES x (EC None kl_empty None (Some (bag_bytes (SafeBag c (Some key)))) (Some pk)) (EC None kl_empty None (Some ct) None) (bag_bytes (SafeBag c (Some key))) c key secret p bits ct pk ty Or Cr).
  - cbn [s2 s1 d_out map fst snd]. unfold do_decrypt. cbn [e ec_iv ec_payload to_bytes rbind]. unfold aes_decrypt. rewrite (Al _ _ _ _ Ecbc). cbn [rbind]. rewrite (proj1 (C74_padding m)). rewrite <- !app_assoc. reflexivity.
  - exact B2.
  - eapply quiet_coh; eassumption.
  - cbn [s2 d_chain]. rewrite (quiet_private P h0 _ _ _ Q2). exact Pn.
  - exact H2.
  - exact H2'.
  - rewrite F4. apply decode_ec2; [intros y [= <-]; exact Npk|exact Z2].
  - reflexivity.
  - rewrite <- (app_nil_r (bag_bytes _)). apply C72_same; assumption.
  - reflexivity.
  - apply member_ok, G2.
  - exact Ld.
  - exact Ck.
  - exact Vc.
  - exact Ow.
  - exact Nn.
  - unfold x_content. rewrite Ec. exact Ty.
  - unfold x_content. rewrite Ec. exact Be.
  - rewrite D4. apply decode_ec2; [intros y X; discriminate X|exact Z1].
  - reflexivity.
  - exact E3.
Qed.
(** ** The storage *)
Definition wide : Prop := forall m, zlen (sha m) = 32.
Lemma signed_ok : forall h0 s i rnd d, signs h0 s i -> signed_by h0 s i rnd d -> sig_ok (d_sig d).
Proof.
  intros h0 s i rnd d (_ & sk & E & N) (sk' & sg & bits & E' & Es & b & ty & p & _ & _ & _ & G & _). assert (sk' = sk) by congruence. subst sk'. rewrite Es, G. apply sig_of_ok; [exact N|]. left. reflexivity.
Qed.
Lemma full_ok : forall d, wide -> data_ok d -> exists c, full_name sha d = Ok (d_name d ++ [c]).
Proof. intros d W D. unfold full_name. rewrite (encodeData_ok d D). cbn [rbind fst]. unfold c_fromImplicitSha256Digest. rewrite W. cbn. eexists. reflexivity. Qed.
Lemma cert_ok : forall ty k now pub v b, 0 <= now -> vp_ok v -> name_ok k -> data_ok (with_sig (self_data k now pub) (sig_of ty k v b)).
Proof.
  intros ty k now pub v b T V N. split; [|split].
  - apply Forall_app. split; [exact N|]. constructor; [apply generic_ok; repeat constructor; unfold is_byte; lia|]. constructor; [apply nonneg_comp, T|constructor].
  - split; [left; cbn; lia|]. split; [cbn; lia|]. apply generic_ok. constructor.
  - apply sig_of_ok; assumption.
Qed.
Lemma cert_seen : forall ty k now pub v b, data_seen data_new (with_sig (self_data k now pub) (sig_of ty k v (Some b))) = with_sig (self_data k now pub) (sig_of ty k v (Some b)).
Proof. intros. apply C18_all_fields; unfold with_sig, sig_of; cbn [d_content d_sig d_meta self_data]; [eexists; reflexivity|destruct (ty =? KT_RSA); eexists; reflexivity|reflexivity|reflexivity|destruct (ty =? KT_RSA); reflexivity]. Qed.
(** The constructor of a new access manager: it makes the NAC key, and serves its KEK Data. *)
Theorem C76_new : forall h0 keys0 s i dataset gen rs now rnd gen2 rs2 now2 rnd2 rnd3 kid, crypto -> order ord -> wide -> reach h0 keys0 s -> signs h0 s i -> let nac := h_name i ++ [N_NAC] ++ dataset in
  name_ok (key_name nac kid) -> params_proper P derive sha s nac rsa_params gen rs now -> dkey h0 s nac = None -> new_id P derive sha s nac rsa_params gen rs kid -> in_time now -> ktype (derive gen) = Ok KT_RSA ->
  exists s' a kek c, AmModel.am_new P derive psign ktype sha ord i dataset gen rs now rnd gen2 rs2 now2 rnd2 rnd3 s = (s', Ok a) /\ reach h0 keys0 s' /\ signs h0 s' i /\ am_id a = i /\
    nac_key h0 s' (am_key a) nac kid gen c /\ d_content c = Some (derive gen) /\ data_ok c /\ data_seen data_new c = c /\
    kek_data nac kid (derive gen) kek /\ signed_by h0 s' i rnd3 kek /\ am_serve a (nac ++ [N_KEK]) = Some kek /\ am_serve a (kek_name nac kid) = Some kek /\ (forall n d, am_serve a n = Some d -> d = kek).
Proof.
  intros h0 keys0 s i dataset gen rs now rnd gen2 rs2 now2 rnd2 rnd3 kid Cr Or W R Si nac Nk Pp Dn Nw Ti Ty. pose proof Si as (Li & sk & Ek & Ns).
  assert (Vn : name_ok nac /\ comp_ok kid). { unfold key_name in Nk. apply Forall_app in Nk. destruct Nk as [N1 N2]. split; [exact N1|]. inversion N2 as [|? ? _ N3]; subst. inversion N3; auto. } destruct Vn as [Vn Vk]. assert (Vn' : Forall c_valid nac) by (eapply Forall_impl; [|exact Vn]; intros a Ha; apply Ha).
  assert (Kp : kproper P derive ktype sha h0 s (KCreateIdentity nac rsa_params gen rs now rnd)) by (split; assumption).
  destruct (C69_create_identity P derive psign pverify ktype sha load ord h0 keys0 s nac rsa_params gen rs now rnd kid Cr Or R Vn' Pp Dn Nw Ti Nk) as (s1 & hd & E1 & Nh & Lh & _ & Dk & Lv & hk0 & sg & bt & M0 & M1 & M2 & M3 & M4 & M5 & M6).
  pose proof (reach_step P derive psign pverify ktype sha load ord h0 keys0 s _ R Kp) as R1. rewrite E1 in R1. cbn [fst] in R1. cbn [ChainModel.kexec] in E1. unfold kout in E1. apply bind_inv in E1. destruct E1 as (hq & s1' & E1 & E1'). unfold ret in E1'. injection E1' as -> ->.
  set (c := with_sig (self_data (key_name nac kid) now (derive gen)) (sg (Some bt))) in *. destruct (reach_ok _ _ _ _ _ _ _ _ h0 keys0 s1 Cr Or R1) as [B1 Co1].
  destruct (r_default_key P ktype ord Or h0 s1 hd B1 Lh) as (s2 & B2 & Q2 & X). assert (Dk1 : dkey h0 s1 (h_name hd) = Some (key_name nac kid)). { rewrite Dk, Nh. destruct (name_dec nac nac); [reflexivity|congruence]. } rewrite Dk1 in X. destruct X as (x & E2 & Nx & Lx).
  pose proof (read_same h0 keys0 s1 (FDefaultKey hd) s2 _ Cr Or R1 Logic.I Lh E2 Q2) as S2. destruct (r_public P ktype ord Or h0 s2 x B2 Lx) as (s3 & b3 & B3 & Q3 & E3 & K3).
  pose proof (read_same h0 keys0 s2 (FPublicKey x) s3 _ Cr Or (proj1 S2) Logic.I Lx E3 Q3) as S3. pose proof (same_trans _ _ _ _ _ S2 S3) as S13.
  assert (b3 = derive gen). { rewrite Nx, (quiet_hist P h0 _ _ Q2) in K3. unfold ChainSpec.public, pib_hist in M1. congruence. } subst b3.
  assert (Nc1 : nac_key h0 s2 x nac kid gen c). { split; [exact Nx|]. split; [exact Lx|]. split; [rewrite (quiet_private P h0 _ _ _ Q2), M2; [destruct (name_dec (key_name nac kid) (key_name nac kid)); [reflexivity|congruence]|eapply Forall_impl; [|exact Nk]; intros a Ha; apply Ha]|].
    split; [apply Cr|]. exists (d_name c). unfold pib_hist in *. rewrite (quiet_hist P h0 _ _ Q2). split; [exact M3|exact M4]. }
  assert (Si1 : signs h0 s1 i). { split; [apply Lv, Li|]. exists sk. split; [|exact Ns]. rewrite Dk. destruct (name_dec nac (h_name i)) as [En|]; [|exact Ek]. rewrite <- En in Ek. congruence. }
  assert (Cb : exists ty, c = with_sig (self_data (key_name nac kid) now (derive gen)) (sig_of ty (key_name nac kid) (period_of (self_info hk0 now)) (Some bt))). { destruct M6 as (b6 & ty & p6 & _ & _ & _ & G & _). exists ty. unfold c. rewrite G. reflexivity. } destruct Cb as [ty Cb].
  assert (Dc : data_ok c) by (rewrite Cb; apply cert_ok; [apply Ti|apply (proj1 (self_signable hk0 now Ti ltac:(rewrite M0; exact Nk)))|exact Nk]).
  assert (Nkek : name_ok (kek_name nac kid)). { apply Forall_app. split; [exact Vn|]. constructor; [apply generic_ok; repeat constructor; unfold is_byte; lia|]. constructor; [exact Vk|constructor]. }
  destruct (C76_kek h0 keys0 s3 i x nac kid gen c (derive gen) rnd3 Cr Or (proj1 S3) (same_signs _ _ _ _ i S13 Si1) (same_nac _ _ _ _ _ _ _ _ _ S3 Nc1) eq_refl Nkek (proj1 (proj2 Dc))) as (s4 & d & E4 & Kd & Md & Sg & S4). pose proof (same_signs _ _ _ _ i (same_trans _ _ _ _ _ S13 S4) Si1) as Si4.
  assert (Dd : data_ok d). { split; [rewrite (proj1 Kd); exact Nkek|]. split; [exact Md|]. eapply signed_ok; [|exact Sg]. apply (same_signs _ _ _ _ i S13 Si1). } destruct (full_ok d W Dd) as [cc Fd].
  exists s4. eexists. exists d, c. split.
  { unfold AmModel.am_new. fold nac. rewrite (bind_ok _ _ _ _ _ _ _ _ E1), (bind_ok _ _ _ _ _ _ _ _ (an_key_ok P _ _ _ _ E2)), (bind_ok _ _ _ _ _ _ _ _ (an_bits_ok P _ _ _ _ E3)). rewrite Ty. rewrite (bind_ok _ _ _ (lift (Ok KT_RSA)) _ s3 s3 KT_RSA eq_refl). cbn [Z.eqb KT_RSA negb]. rewrite (bind_ok _ _ _ (ret x) _ s3 s3 x eq_refl). rewrite (bind_ok _ _ _ _ _ _ _ _ E4). unfold am_insert. rewrite Fd. reflexivity. }
  split; [apply S4|]. split; [exact Si4|]. split; [reflexivity|]. split; [exact (same_nac _ _ _ _ _ _ _ _ _ (same_trans _ _ _ _ _ S3 S4) Nc1)|]. split; [reflexivity|]. split; [exact Dc|]. split; [rewrite Cb; apply cert_seen|]. split; [exact Kd|].
  split. { destruct Sg as (sk' & sg' & bits' & G0 & G1 & b' & ty' & p' & G2 & G3 & G4 & G5). exists sk', sg', bits'. destruct S4 as [_ Q4]. rewrite (quiet_dkey P h0 _ _ _ Q4). split; [exact G0|]. split; [exact G1|]. exists b', ty', p'. unfold ChainSpec.public, pib_hist in *. rewrite (quiet_hist P h0 _ _ Q4), (quiet_private P h0 _ _ sk' Q4). auto. }
  unfold am_serve. cbn [am_store dset st_find]. assert (U : forall n, (exists r, d_name d ++ [cc] = n ++ r) -> n_isPrefixOf n (d_name d ++ [cc]) = true). { intros n [r Er]. apply under_iff. exists (map c_value r). rewrite Er, map_app. reflexivity. }
  rewrite !U; [split; [reflexivity|split; [reflexivity|]]| |]; [intros n d' X; destruct (n_isPrefixOf n _); congruence|exists [cc]; rewrite (proj1 Kd); reflexivity|exists [kid; cc]; rewrite (proj1 Kd); unfold kek_name; rewrite <- !app_assoc; reflexivity].
Qed.
(** addMember: the KDK Data is made and served; what was stored before stays. *)
Theorem C76_add_member : forall h0 keys0 s a nac kid p c member mpub raw r pk rnd, crypto -> order ord -> wide -> reach h0 keys0 s -> signs h0 s (am_id a) -> nac_key h0 s (am_key a) nac kid p c -> data_ok c ->
  d_content member = Some mpub -> penc r mpub (am_secret raw) = Ok pk -> name_ok (kdk_data_name nac kid (owner (d_name member))) ->
  exists s' a' d full, AmModel.am_addMember P psign ktype sha dump ord penc a member raw r rnd s = (s', Ok (a', d)) /\ same_chain h0 keys0 s s' /\ am_id a' = am_id a /\ am_key a' = am_key a /\
    kdk_data penc nac kid (owner (d_name member)) mpub c (dump p (Some (am_secret raw))) (am_secret raw) d /\ signed_by h0 s (am_id a) rnd d /\
    (exists x, full = d_name d ++ [x]) /\ am_store a' = dset n_equals (am_store a) full d /\ (am_serve a (d_name d) = None -> am_serve a' (d_name d) = Some d) /\
    (forall n, am_serve a n <> None -> am_serve a' n <> None).
Proof.
  intros h0 keys0 s a nac kid p c member mpub raw r pk rnd Cr Or W R Si Nc Dk Em Ep Nn. destruct (C76_kdk h0 keys0 s (am_id a) (am_key a) nac kid p c member mpub raw r pk rnd Cr Or R Si Nc Dk Em Ep Nn) as (s' & d & E & Kd & Md & Sg & S').
  assert (Dd : data_ok d). { split; [rewrite (proj1 Kd); exact Nn|]. split; [exact Md|]. eapply signed_ok; eassumption. } destruct (full_ok d W Dd) as [x Fd].
  exists s'. do 3 eexists. split; [unfold AmModel.am_addMember; rewrite (bind_ok _ _ _ _ _ _ _ _ E); unfold am_insert; rewrite Fd; reflexivity|]. split; [exact S'|]. split; [reflexivity|]. split; [reflexivity|]. split; [exact Kd|]. split; [exact Sg|]. split; [exists x; reflexivity|]. split; [reflexivity|].
  unfold am_serve. cbn [am_store]. assert (U : n_isPrefixOf (d_name d) (d_name d ++ [x]) = true). { apply under_iff. exists [c_value x]. rewrite map_app. reflexivity. } split.
  - clear - U. induction (am_store a) as [|[k v] l IH]; cbn [st_find dset]; [rewrite U; reflexivity|]. intros H. destruct (n_isPrefixOf (d_name d) k) eqn:Ek; [discriminate H|]. destruct (n_equals k (d_name d ++ [x])) eqn:Ee; cbn [st_find]; [|rewrite Ek; apply IH, H].
    exfalso. apply n_equals_ckey in Ee. apply (f_equal (map snd)) in Ee. rewrite !map_map in Ee. apply under_iff in U. destruct U as [r0 U]. assert (Y : n_isPrefixOf (d_name d) k = true); [|congruence]. apply under_iff. exists r0. etransitivity; [exact Ee|exact U].
  - clear. intros n. induction (am_store a) as [|[k v] l IH]; cbn [st_find dset]; [congruence|]. destruct (n_equals k (d_name d ++ [x])); cbn [st_find]; destruct (n_isPrefixOf n k); auto; discriminate.
Qed.

(** ** From the access manager through a producer to a member *)
Theorem C76_end_to_end : forall h0 keys0 sm i hk nac kid p c pub rnd1 s1 kek member mpub raw r rnd2 s2 kdk
    accessPrefix ckPrefix l now bits iv m cw
    h1 keys1 s mp ty a b cred rnd3 rnd4 req x,
  crypto -> order ord -> rsa_law psign pverify penc pdec -> aes_law cbc cbc_inv -> (forall q w, load (dump q w) w = Ok q) ->
  (* the access manager makes the KEK Data, and the KDK Data of the member *)
  reach h0 keys0 sm -> signs h0 sm i -> nac_key h0 sm hk nac kid p c -> d_content c = Some pub -> data_ok c -> data_seen data_new c = c -> ktype pub = Ok ty -> d_content member = Some mpub ->
  name_ok (kek_name nac kid) -> name_ok (kdk_data_name nac kid (owner (d_name member))) ->
  am_kek i hk rnd1 sm = (s1, Ok kek) -> am_kdk i hk member raw r rnd2 s1 = (s2, Ok kdk) ->
  (* the producer publishes its CK with that KEK, and encrypts *)
  let producer := e_run penc cbc sha accessPrefix ckPrefix in let k := ck_of_time ckPrefix now in
  eproper l -> NoDup (map fst (regens l)) -> current l = Some (now, bits) -> published penc (producer l) k bits kek -> (forall kek', kek_in l kek' -> kek' = kek) -> cbc bits iv (aes_pad m) = Ok cw ->
  (* the member reads *)
  reach h1 keys1 (d_chain s) -> belongs mpub mp -> dget n_equals (d_keys s) k = None -> private (d_chain s) (key_name nac kid) = None ->
  exists w ck, e_out (producer (l ++ [VEncrypt iv m])) = e_out (producer l) ++ [OContent (Ok w)] /\ serve (producer l) k = Some ck /\
   (zlen (blob_bytes (d_content ck)) < 2 ^ 64 -> zlen (blob_bytes (d_content kdk)) < 2 ^ 64 -> zlen (bag_bytes (SafeBag c (Some (dump p (Some (am_secret raw)))))) < 2 ^ 64 ->
    d_out (d_run (owner (d_name member)) s [EDecrypt req w (Some a); EData a ck cred rnd3 (Some b); EData b kdk (member_key pdec mp) rnd4 x]) =
    d_out s ++ [Send a k true false; Send b (d_name kdk) false true; Answer req (Success m)]).
Proof.
  intros h0 keys0 sm i hk nac kid p c pub rnd1 s1 kek member mpub raw r rnd2 s2 kdk accessPrefix ckPrefix l now bits iv m cw h1 keys1 s mp ty a b cred rnd3 rnd4 req x Cr Or Rl Al Ldl R Si Nc Ec Dk Ds Ty Em N1 N2 Ek Ed producer k Pr Nd Cu Pu One Ecw R1 Bm Hk Pn.
  destruct (C76_kek h0 keys0 sm i hk nac kid p c pub rnd1 Cr Or R Si Nc Ec N1 (proj1 (proj2 Dk))) as (s1' & kek' & Ek' & Kk & _ & _ & S1). rewrite Ek in Ek'. injection Ek' as <- <-.
  assert (Epk : exists pk, penc r mpub (am_secret raw) = Ok pk). { clear - Ed Em. unfold AmModel.am_kdk in Ed. do 3 (apply bind_inv in Ed; destruct Ed as (? & ? & _ & Ed)). cbv zeta in Ed. do 2 (apply bind_inv in Ed; destruct Ed as (? & ? & _ & Ed)). apply bind_inv in Ed. destruct Ed as (pub1 & ? & E1 & Ed). rewrite Em in E1. cbn in E1. unfold lift in E1. injection E1 as <- <-. apply bind_inv in Ed; destruct Ed as (? & ? & _ & Ed). apply bind_inv in Ed. destruct Ed as (pk & ? & E2 & _). unfold lift in E2. exists pk. congruence. } destruct Epk as [pk Epk].
  pose proof (same_signs _ _ _ _ i S1 Si) as Si1. pose proof (same_nac _ _ _ _ _ _ _ _ _ S1 Nc) as Nc1.
  destruct (C76_kdk h0 keys0 s1 i hk nac kid p c member mpub raw r pk rnd2 Cr Or (proj1 S1) Si1 Nc1 Dk Em Epk N2) as (s2' & kdk' & Ed' & Kd & _). rewrite Ed in Ed'. injection Ed' as <- <-.
  destruct (default_cert_step h0 keys0 sm hk nac kid p c Cr Or R Nc) as (_ & _ & _ & On & Vc & Ck & Nn). destruct Nc as (_ & _ & _ & Be & _). unfold x_content in Be. rewrite Ec in Be.
  destruct (C75_served penc cbc sha accessPrefix ckPrefix l [] now bits kek) as (ck & kek2 & Sv & Kin & Cd); [rewrite app_nil_r; exact Pr|rewrite app_nil_r; exact Nd|apply current_in, Cu|exact Pu|]. rewrite app_nil_r in Sv, Kin. assert (kek2 = kek) by (apply One, Kin). subst kek2.
  eexists. exists ck. split; [unfold producer; rewrite (C75_encrypt penc cbc sha accessPrefix ckPrefix l iv m now bits Pr Cu), Ecw; reflexivity|]. split; [exact Sv|]. intros Z1 Z2 Z3. rewrite (proj1 Kd).
  eapply C76_read; try eassumption; [|apply Ldl]. unfold e_encrypt, aes_encrypt. rewrite Ecw. reflexivity.
Qed.
End A.
Print Assumptions C76_kek.
Print Assumptions C76_kdk.
Print Assumptions C76_read.
Print Assumptions C76_new.
Print Assumptions C76_add_member.
Print Assumptions C76_end_to_end.

(** The bytes of the secret are meant to be in 1 to 127 (access_manager_v2.py 153-164), but a random
    byte 128 gives zero. *)
Theorem C76_secret_refuted : ~ (forall raw, bytes_ok raw -> Forall (fun b => 1 <= b <= 127) (am_secret raw)).
Proof. intros H. specialize (H [128] ltac:(repeat constructor; unfold is_byte; lia)). inversion H as [|? ? X _]. cbn in X. lia. Qed.
Theorem C76_secret : forall raw, bytes_ok raw -> zlen (am_secret raw) = zlen raw /\ Forall (fun b => 0 <= b <= 127) (am_secret raw) /\ (~ In 128 raw -> Forall (fun b => 1 <= b <= 127) (am_secret raw)).
Proof.
  intros raw H. unfold bytes_ok in H. split; [unfold am_secret; apply zlen_map|]. assert (E : forall b, is_byte b -> Z.land (if b =? 0 then 1 else b) 127 = if b =? 0 then 1 else b mod 128). { intros b Hb. change 127 with (Z.ones 7). destruct (b =? 0); [reflexivity|]. rewrite Z.land_ones by lia. reflexivity. }
  split; [|intros N]; unfold am_secret; apply Forall_map; rewrite Forall_forall in *; intros b J; specialize (H b J); rewrite (E b H); unfold is_byte in H; destruct (Z.eqb_spec b 0); try lia.
  - pose proof (Z.mod_pos_bound b 128). lia.
  - assert (b <> 128) by congruence. Z.to_euclidean_division_equations. lia.
Qed.
