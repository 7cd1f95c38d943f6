(** * C92, continued: what is signed verifies *)
From Verif Require MatchProps ChainProofs3 ChainModel.
From Verif Require Import Base BaseLemmas NameModel NameSpec NameProofs UriModel UriSpec BlobModel DictModel DictProofs DerModel DerProps PkcsModel TlvSpec WireModel WireSpec TlvDecProofs WireProofs WireProofs3 WireProofs5 WireProps CtlModel MatchModel SigProps IcertModel IcertSpec IcertProps IdmModel IdmSpec IdmProofs IdmProofs2 IdmProofs3 IdmProps IdmProps2 SelfModel SelfSpec SelfProofs SelfProps.
Local Open Scope res_scope.

(** Signing an Interest: the SignatureInfo and SignatureValue are appended *)
Definition attached (i : interest) (sg : signature) (bits : bytes) : interest := i_setName i (i_name i ++ [c_generic (siginfo sg); c_generic (tlv 23 bits)]).
Definition to_sign (i : interest) (sg : signature) : bytes := elems (map comp_el (i_name i ++ [c_generic (siginfo sg)])).
Lemma prefix_pair : forall (n : name) a b, n_getPrefix (n ++ [a; b]) (-1) = Ok (n ++ [a]).
Proof. intros n a b. rewrite prefix_last. change [a; b] with ([a] ++ [b]). rewrite app_assoc, removelast_last. reflexivity. Qed.
Lemma sign_info : forall sg, sig_ok sg -> encodeSignatureInfo sg = Ok (siginfo sg).
Proof. intros sg H. destruct (sig_ok_el sg H) as (v & Ev & Es & _). unfold encodeSignatureInfo. rewrite Es, app_nil_r. rewrite elems_one. cbn [fst snd]. rewrite <- Ev. reflexivity. Qed.
Lemma sign_value : forall sg bits, encodeSignatureValue (sig_setBits sg (Some bits)) = tlv 23 bits.
Proof. intros sg bits. unfold encodeSignatureValue. rewrite e_blobTlv_tlv by lia. rewrite app_nil_r. destruct sg; reflexivity. Qed.
Lemma name_pair_ok : forall i a b, interest_ok i -> bytes_ok a -> bytes_ok b -> name_ok (i_name i ++ [c_generic a; c_generic b]).
Proof. intros i a b H Ha Hb. apply Forall_app. split; [apply H|]. constructor; [now apply generic_ok|]. constructor; [now apply generic_ok|constructor]. Qed.
Lemma sign_encode : forall rn i sg, interest_ok i -> bytes_ok (siginfo sg) -> exists e, encodeInterest rn (i_setName i (i_name i ++ [c_generic (siginfo sg); c_generic []])) = Ok e /\ signed_part e = to_sign i sg.
Proof.
  intros rn i sg Hi Hs. set (n1 := i_name i ++ [c_generic (siginfo sg); c_generic []]). assert (Hn : name_ok n1) by (apply name_pair_ok; auto; constructor).
  destruct (ChainProofs3.interest_slice_ok rn (i_setName i n1) (ChainProofs3.rename_ok i n1 Hi Hn)) as (w & b & e & En & Sl). eexists. split; [exact En|]. cbn [signed_part]. rewrite Sl. cbn [i_name ChainModel.i_setName]. unfold n1, to_sign. change [c_generic (siginfo sg); c_generic []] with ([c_generic (siginfo sg)] ++ [c_generic []]). rewrite app_assoc, removelast_last. reflexivity.
Qed.
Lemma attached_ok : forall i sg bits, interest_ok i -> bytes_ok (siginfo sg) -> bytes_ok bits -> interest_ok (attached i sg bits).
Proof. intros i sg bits Hi Hs Hb. apply ChainProofs3.rename_ok; [exact Hi|]. apply name_pair_ok; auto. apply ChainProofs3.tlv_bytes; [lia|exact Hb]. Qed.
Lemma attached_covers : forall i sg bits, interest_ok i -> bytes_ok (siginfo sg) -> bytes_ok bits -> interest_covers (attached i sg bits) None (to_sign i sg).
Proof.
  intros i sg bits Hi Hs Hb. split; [now apply attached_ok|]. cbn [attached ChainModel.i_setName i_name]. change [c_generic (siginfo sg); c_generic (tlv 23 bits)] with ([c_generic (siginfo sg)] ++ [c_generic (tlv 23 bits)]). rewrite app_assoc, removelast_last. reflexivity.
Qed.
Definition small (n : name) : Prop := Forall (fun c => zlen (c_value c) < 2 ^ 64) n.
Lemma attached_signed : forall i sg bits, sig_ok sg -> small (i_name (attached i sg bits)) -> match sg with SigRsa k _ _ | SigEcdsa k _ _ | SigHmac k _ => kl_seen k = k | _ => True end -> signed_with (attached i sg bits) (sig_setBits sg (Some bits)).
Proof.
  intros i sg bits Hs Sm K. cbn [attached ChainModel.i_setName i_name] in Sm. apply Forall_app in Sm. destruct Sm as [_ Sm]. inversion Sm as [|x l S1 S2]; subst. inversion S2 as [|x l S3 _]; subst. cbn [c_generic c_value] in *.
  exists (i_name i), (c_generic (siginfo sg)), (c_generic (tlv 23 bits)). split; [reflexivity|]. cbn [c_generic c_value].
  assert (Ho : sig_ok (sig_setBits sg (Some bits))) by (destruct sg; exact Hs). assert (Ei : siginfo (sig_setBits sg (Some bits)) = siginfo sg) by (destruct sg; reflexivity).
  destruct (C47_round_trip (sig_setBits sg (Some bits)) Ho) as [_ R]; [rewrite Ei; exact S1|rewrite sign_value; exact S3|]. rewrite Ei, sign_value in R. rewrite R. f_equal. apply C47_all_fields; [destruct sg; eexists; reflexivity|]. destruct sg; exact K.
Qed.
Lemma cert_rest : forall n k, key_name n k -> versioned n -> key_name (removelast n) k.
Proof.
  intros n k (a & kw & b & iw & c & E & W1 & W2 & F1 & F2 & ->) (p & v & En & Nv). destruct c as [|x c] using rev_ind.
  - exfalso. assert (E' : n = (a ++ kw :: b) ++ [iw]) by (rewrite E, <- app_assoc; reflexivity). rewrite E' in En. apply app_inj_tail in En. destruct En as [_ ->]. contradiction.
  - clear IHc. exists a, kw, b, iw, c. apply Forall_app in F2. destruct F2 as [F2 _]. split; [|split; [exact W1|]; split; [exact W2|]; split; [exact F1|]; split; [exact F2|reflexivity]]. rewrite E. replace (a ++ [kw] ++ b ++ [iw] ++ c ++ [x]) with ((a ++ [kw] ++ b ++ [iw] ++ c) ++ [x]) by (rewrite <- !app_assoc; reflexivity). apply removelast_last.
Qed.
Lemma by_key_bytes : forall t l b, name_ok l -> bytes_ok (siginfo (by_key t l b)).
Proof. intros t l b H. exact (ChainProofs3.siginfo_bytes t l vp_none b H (or_introl eq_refl)). Qed.
Lemma hmac_bytes : forall l b, name_ok l -> bytes_ok (siginfo (SigHmac (KL (Some 1) l None) b)).
Proof.
  intros l b H. cbn [siginfo]. apply ChainProofs3.tlv_bytes; [lia|]. apply ChainProofs3.elems_bytes. constructor; [split; [cbn; lia|apply bytes_okb_ok; reflexivity]|]. constructor; [|constructor].
  unfold kl_el. cbn [fst snd]. split; [lia|]. unfold kl_body. cbn [kl_type kl_name]. cbn [Z.eqb Pos.eqb]. apply ChainProofs3.elems_bytes. constructor; [|constructor]. split; [cbn; lia|]. apply ChainProofs3.name_bytes, H.
Qed.
Lemma digest_bytes : forall b, bytes_ok (siginfo (SigDigest b)).
Proof. intro b. apply bytes_okb_ok. reflexivity. Qed.

Section Signed.
Context {P : Type}.
Variable gen : Z -> Z -> Z -> res P.
Variable derive : P -> res bytes.
Variable psign : P -> Z -> bytes -> res bytes.
Variable load_pkcs8 : bytes -> Z -> res P.
Variable load_public : bytes -> res unit.
Variable floor40 : Z -> Z.
Variable vrfy : bytes -> Z -> bytes -> bytes -> bool.
Variable sha : bytes -> bytes.
Variable hmac : bytes -> bytes -> bytes.
Notation st := (st P).
Notation run := (run P gen derive psign load_pkcs8 load_public floor40).
Notation verifyData := (verifyData P load_public floor40 vrfy sha).
Notation verifyInterest := (verifyInterest P load_public floor40 vrfy sha).
Notation vouched := (vouched load_public floor40 vrfy sha).
Notation SelfVerify := (SelfVerify P).
Notation IdentityStore := (IdentityStore P).
Notation signData := (signData P psign).
Notation signInterest := (signInterest P psign).
Notation signByIdentity := (signByIdentity P psign).

(** A signature that a private key makes is accepted with its public key; signatures are bytes *)
Definition crypto_ok : Prop := (forall p b x t m sg, derive p = Ok b -> pk_new load_public floor40 b = Ok x -> pk_type x = Some t -> psign p 1 m = Ok sg -> vrfy b t m sg = true) /\ (forall p m sg, psign p 1 m = Ok sg -> bytes_ok sg).
(** A state of a program that does not set key pairs in the private key storage *)
Definition own (s : st) : Prop := exists strict start h, Forall (op_ok strict) h /\ Forall not_imported h /\ s = run h (st_init P start).

Lemma signer_vouched : forall s k t p n m bits h, crypto_ok -> own s -> key_name n k -> versioned n -> signer_key s k t p -> psign p 1 m = Ok bits -> vouched (IdentityStore (run h s)) (by_key t (removelast n) (Some bits)) m.
Proof.
  intros s k t p n m bits h [Cr _] (strict & start & h0 & F1 & F2 & Es) Kn Vn ((x & Ex & Et) & T & Ep) Hb.
  assert (O : owns derive load_public floor40 s) by (subst s; apply run_owns; [exact F2|apply owns_init]). assert (I0 : inv strict s) by (apply (reached_inv gen derive psign load_pkcs8 load_public floor40); exists start, h0; auto).
  destruct (O _ _ Ex) as (p' & t' & b & c & Ep' & Ek & Ed & Ey). rewrite Ep in Ep'. injection Ep' as <-.
  assert (Nk : k <> []).
  { intros ->. destruct (inv_keys _ _ I0 _ _ _ _ Ek) as (k' & Hk' & N & Eu & _). apply uri_inj in Eu; [congruence|constructor|exact Hk']. }
  assert (G : getKey P k s = Ok b) by (unfold getKey; replace (zlen k =? 0) with false by (destruct k as [|a k]; [congruence|]; rewrite zlen_cons; pose proof (zlen_nonneg _ k); lia); rewrite Ek; reflexivity).
  pose proof (proj1 (C91_kept gen derive psign load_pkcs8 load_public floor40 h s) k b G) as G'.
  assert (V : exists b0 x0 t0 sig, Some 1 = Some 1 /\ key_for (IdentityStore (run h s)) (removelast n) b0 /\ pk_new load_public floor40 b0 = Ok x0 /\ pk_type x0 = Some t0 /\ Some bits = Some sig /\ vrfy b0 t0 m sig = true).
  { exists b, x, t, bits. split; [reflexivity|]. split; [exists k; split; [apply cert_rest; assumption|exact G']|]. split; [exact Ey|]. split; [exact Et|]. split; [reflexivity|]. exact (Cr p b x t m bits Ed Ey Et Hb). }
  unfold by_key. destruct (t =? 0); exact V.
Qed.
Lemma signData_inv : forall s d n d', name_ok (d_name d) -> mi_ok (d_meta d) -> name_ok n -> signData d n s = Ok d' ->
  exists k t p bits, key_name n k /\ signer_key s k t p /\ d' = Data (d_name d) (d_meta d) (d_content d) (by_key t (removelast n) (Some bits)) /\ psign p 1 (data_signed d') = Ok bits.
Proof.
  intros s d n d' Hd Hm Hn H. destruct (C91_sign_refused psign s d n) as (R1 & _ & R3).
  assert (K : exists k, key_name n k). { unfold IdmModel.signData, makeSignature in H. destruct (certificateNameToPublicKeyName n) as [k|e] eqn:E; [exists k; apply C89_key_name; exact E|discriminate H]. }
  destruct K as (k & Kn). destruct (R3 k d' H Kn) as (t & p & Sk). pose proof (name_ok_removelast _ Hn) as Hl. unfold IdmModel.signData in H. rewrite (makeSignature_ok n k t p s Kn Sk) in H. cbn [rbind] in H.
  destruct (ChainProofs3.data_slice (Data (d_name d) (d_meta d) (d_content d) (by_key t (removelast n) None))) as (w & b & e & Ew & Sl); [split; [exact Hd|]; split; [exact Hm|]; now apply by_key_ok|]. rewrite Ew in H. cbn [rbind signed_part] in H. rewrite (proj2 (proj1 (C89_key_name n k)) Kn) in H. cbn [rbind] in H. rewrite Sl in H.
  destruct (psign p 1 (data_signed (Data (d_name d) (d_meta d) (d_content d) (by_key t (removelast n) None)))) as [bits|err] eqn:Eb.
  - unfold tpm_sign in H. pose proof Sk as (_ & _ & Ep). rewrite Ep, Eb in H. cbn [rbind] in H. apply rbind_ok in H. destruct H as (u & _ & H). injection H as <-. exists k, t, p, bits. split; [exact Kn|]. split; [exact Sk|].
    assert (E : sig_setBits (by_key t (removelast n) None) (Some bits) = by_key t (removelast n) (Some bits)) by (unfold by_key; destruct (t =? 0); reflexivity). rewrite E. split; [reflexivity|]. rewrite (signed_by_key d t _ _ None). exact Eb.
  - unfold tpm_sign in H. pose proof Sk as (_ & _ & Ep). rewrite Ep, Eb in H. discriminate H.
Qed.
(** What signByCertificate signs verifies with the same KeyChain, then and whatever is done later, and after it was sent *)
Theorem C92_data : forall s d n d' h, crypto_ok -> own s -> name_ok (d_name d) -> mi_ok (d_meta d) -> name_ok n -> versioned n -> signData d n s = Ok d' ->
  let q := SelfVerify (IdentityStore (run h s)) in
  d_name d' = d_name d /\ d_content d' = d_content d /\ d_meta d' = d_meta d /\ verifyData q d' None = Verified /\
  (zlen (data_bytes d') < 2 ^ 64 -> forall prev, exists d2 offs, decodeData prev (data_bytes d') = Ok (d2, offs) /\ d_name d2 = d_name d /\ verifyData q d2 (Some (data_bytes d', offs)) = Verified).
Proof.
  intros s d n d' h Cr O Hd Hm Hn Vn H q. destruct (signData_inv s d n d' Hd Hm Hn H) as (k & t & p & bits & Kn & Sk & Ed & Hb). pose proof (signer_vouched s k t p n _ bits h Cr O Kn Vn Sk Hb) as V.
  assert (Dok : data_ok d') by (rewrite Ed; split; [exact Hd|]; split; [exact Hm|]; apply by_key_ok, name_ok_removelast, Hn).
  assert (Sg : d_sig d' = by_key t (removelast n) (Some bits)) by (rewrite Ed; reflexivity).
  split; [rewrite Ed; reflexivity|]. split; [rewrite Ed; reflexivity|]. split; [rewrite Ed; reflexivity|]. split.
  - apply (C92_data_verified load_public floor40 vrfy sha (IdentityStore (run h s)) d' None (data_signed d')); [split; [exact Dok|reflexivity]|]. rewrite Sg. exact V.
  - intros Sm prev. destruct (C18_data_round_trip prev d' Dok Sm) as ([b e] & E & D). exists (data_seen prev d'), (b, e). split; [exact D|]. split; [rewrite Ed; reflexivity|].
    destruct (ChainProofs3.data_slice d' Dok) as (w & b' & e' & E' & Sl). rewrite E in E'. injection E' as <- <- <-.
    apply (C92_data_verified load_public floor40 vrfy sha (IdentityStore (run h s)) (data_seen prev d') (Some (data_bytes d', (b, e))) (data_signed d')); [cbn; symmetry; exact Sl|]. cbn [data_seen d_sig]. rewrite Sg.
    assert (Es : sig_seen (by_key t (removelast n) (Some bits)) = by_key t (removelast n) (Some bits)) by (unfold by_key; destruct (t =? 0); reflexivity). rewrite Es. exact V.
Qed.
(** signByIdentity is signByCertificate with the default certificate of the identity, or of the default identity *)
Theorem C92_by_identity : forall s d i d', signByIdentity d i s = Ok d' ->
  exists j n, (i <> [] /\ j = i \/ i = [] /\ getDefaultIdentity P s = Ok j) /\ getDefaultCertificateNameForIdentity P j s = Ok n /\ n <> [] /\ signData d n s = Ok d'.
Proof.
  intros s d i d' H. unfold SelfModel.signByIdentity in H. apply rbind_ok in H. destruct H as (n & En & H). destruct (zlen n =? 0) eqn:Z0; [discriminate H|]. assert (Nn : n <> []) by (intros ->; discriminate Z0).
  destruct i as [|a i]; [apply rbind_ok in En; destruct En as (j & Ej & En); exists j, n; auto 8|]. replace (zlen (a :: i) =? 0) with false in En by (rewrite zlen_cons; pose proof (zlen_nonneg _ i); lia). exists (a :: i), n. split; [left; split; [discriminate|reflexivity]|auto].
Qed.
Lemma interest_later : forall w rn i sg bits sg', interest_ok i -> bytes_ok (siginfo sg) -> bytes_ok bits -> signed_with (attached i sg bits) sg' -> vouched w sg' (to_sign i sg) ->
  verifyInterest (SelfVerify w) rn (attached i sg bits) None = Verified /\
  (let nonce := nonce4 rn (i_nonce i) in blob_size (i_params i) = 0 -> zlen (interest02 (attached i sg bits) nonce) < 2 ^ 64 -> forall prev, i_hint prev = [] ->
   exists i2 offs, decodeInterest prev (interest02 (attached i sg bits) nonce) = Ok (i2, offs) /\ i_name i2 = i_name (attached i sg bits) /\ forall rn', verifyInterest (SelfVerify w) rn' i2 (Some (interest02 (attached i sg bits) nonce, offs)) = Verified).
Proof.
  intros w rn i sg bits sg' Hi Hs Hb Sw V. pose proof (attached_covers i sg bits Hi Hs Hb) as C. split; [apply (C92_interest_verified load_public floor40 vrfy sha w rn _ None _ C); eauto|].
  intros nonce Pz Sm prev Hp. destruct (C16_interest_round_trip rn prev (attached i sg bits) (attached_ok i sg bits Hi Hs Hb) Pz Hp Sm) as (b & e & E & D & Sl). eexists. exists (b, e). split; [exact D|]. split; [reflexivity|]. intro rn'.
  apply (C92_interest_verified load_public floor40 vrfy sha w rn' _ (Some (interest02 (attached i sg bits) nonce, (b, e))) (to_sign i sg)); [|exists sg'; split; [exact Sw|exact V]]. cbn [interest_covers]. destruct C as [_ C]. rewrite C. symmetry. exact Sl.
Qed.
(** The same for an Interest *)
Theorem C92_interest : forall s rn i n i' h, crypto_ok -> own s -> interest_ok i -> name_ok n -> versioned n -> signInterest rn i n s = Ok i' -> small (i_name i') ->
  let q := SelfVerify (IdentityStore (run h s)) in
  (exists a b, i' = i_setName i (i_name i ++ [a; b])) /\ (forall rn', verifyInterest q rn' i' None = Verified) /\
  (let nonce := nonce4 rn (i_nonce i) in blob_size (i_params i) = 0 -> zlen (interest02 i' nonce) < 2 ^ 64 -> forall prev, i_hint prev = [] ->
   exists i2 offs, decodeInterest prev (interest02 i' nonce) = Ok (i2, offs) /\ i_name i2 = i_name i' /\ forall rn', verifyInterest q rn' i2 (Some (interest02 i' nonce, offs)) = Verified).
Proof.
  intros s rn i n i' h Cr O Hi Hn Vn H Sm q. assert (K : exists k, key_name n k). { unfold SelfModel.signInterest, makeSignature in H. destruct (certificateNameToPublicKeyName n) as [k|e] eqn:E; [exists k; apply C89_key_name; exact E|discriminate H]. }
  destruct K as (k & Kn). pose proof (name_ok_removelast _ Hn) as Hl.
  assert (Sk : exists t p, signer_key s k t p).
  { pose proof (proj2 (proj1 (C89_key_name n k)) Kn) as Ek. unfold SelfModel.signInterest, makeSignature in H. rewrite Ek in H. cbn [rbind] in H. unfold tpm_getPublicKey in H. destruct (dget zlist_eqb (pubs P s) (uri k)) as [x|] eqn:Ex; [|discriminate H]. cbn [rbind] in H. rewrite prefix_last in H. cbn [rbind] in H.
    assert (Pv : exists p, dget zlist_eqb (privs P s) (uri k) = Some p).
    { destruct (dget zlist_eqb (privs P s) (uri k)) as [p|] eqn:Ep; [eauto|]. exfalso. apply rbind_ok in H. destruct H as (sg & _ & H). apply rbind_ok in H. destruct H as (info & _ & H). cbv zeta in H. apply rbind_ok in H. destruct H as (e & _ & H). apply rbind_ok in H. destruct H as (bits & Eb & _). unfold tpm_sign in Eb. rewrite Ep in Eb. discriminate Eb. }
    destruct Pv as (p & Ep). destruct (pk_type x) as [z0|] eqn:Et; [|discriminate H]. exists z0, p. assert (Z0 : z0 = 0 \/ z0 = 1) by (clear - H; destruct z0 as [|[z|z|]|]; [left; reflexivity|discriminate H|discriminate H|right; reflexivity|discriminate H]). split; [exists x; split; [exact Ex|exact Et]|]. split; [exact Z0|exact Ep]. }
  destruct Sk as (t & p & Sk). unfold SelfModel.signInterest in H. rewrite (makeSignature_ok n k t p s Kn Sk) in H. cbn [rbind] in H. set (sg := by_key t (removelast n) None) in *. assert (So : sig_ok sg) by now apply by_key_ok. assert (Sb : bytes_ok (siginfo sg)) by now apply by_key_bytes.
  rewrite (sign_info sg So) in H. cbn [rbind] in H. cbv zeta in H. destruct (sign_encode rn i sg Hi Sb) as (e & Ee & Es). rewrite Ee in H. cbn [rbind] in H. rewrite Es, (proj2 (proj1 (C89_key_name n k)) Kn) in H. cbn [rbind] in H. unfold tpm_sign in H. pose proof Sk as (_ & _ & Ep). rewrite Ep in H. destruct (psign p 1 (to_sign i sg)) as [bits|err] eqn:Eb; [|discriminate H]. cbn [rbind] in H. rewrite prefix_pair in H. cbn [rbind] in H. rewrite sign_value, <- app_assoc in H. cbn [app] in H. injection H as <-. fold (attached i sg bits) in *.
  pose proof Cr as [_ Cb]. specialize (Cb _ _ _ Eb). pose proof (signer_vouched s k t p n _ bits h Cr O Kn Vn Sk Eb) as V.
  assert (Sw : signed_with (attached i sg bits) (by_key t (removelast n) (Some bits))).
  { replace (by_key t (removelast n) (Some bits)) with (sig_setBits sg (Some bits)) by (subst sg; unfold by_key; destruct (t =? 0); reflexivity). apply attached_signed; [exact So|exact Sm|]. subst sg. unfold by_key. destruct (t =? 0); reflexivity. }
  split; [do 2 eexists; reflexivity|]. split; [intro rn'; exact (proj1 (interest_later _ rn' i sg bits _ Hi Sb Cb Sw V))|exact (proj2 (interest_later _ rn i sg bits _ Hi Sb Cb Sw V))].
Qed.

(** ** Digests and HMAC *)
(** signWithSha256 never fails; what it signs verifies with any storage, also after it was sent; and the signature is
    the digest of the signed portion *)
Theorem C92_sha : (forall m, bytes_ok (sha m)) -> forall w,
  (forall d, name_ok (d_name d) -> mi_ok (d_meta d) -> exists d', signDataSha sha d = Ok d' /\ d' = Data (d_name d) (d_meta d) (d_content d) (SigDigest (Some (sha (data_signed d')))) /\ verifyData (SelfVerify w) d' None = Verified /\
    (zlen (data_bytes d') < 2 ^ 64 -> forall prev, exists d2 offs, decodeData prev (data_bytes d') = Ok (d2, offs) /\ d_name d2 = d_name d /\ verifyData (SelfVerify w) d2 (Some (data_bytes d', offs)) = Verified)) /\
  (forall rn i, interest_ok i -> exists i' a b, signInterestSha sha rn i = Ok i' /\ i' = i_setName i (i_name i ++ [a; b]) /\ (small (i_name i') -> (forall rn', verifyInterest (SelfVerify w) rn' i' None = Verified) /\
    (let nonce := nonce4 rn (i_nonce i) in blob_size (i_params i) = 0 -> zlen (interest02 i' nonce) < 2 ^ 64 -> forall prev, i_hint prev = [] ->
      exists i2 offs, decodeInterest prev (interest02 i' nonce) = Ok (i2, offs) /\ i_name i2 = i_name i' /\ forall rn', verifyInterest (SelfVerify w) rn' i2 (Some (interest02 i' nonce, offs)) = Verified))).
Proof.
  intros Hs w. split.
  - intros d Hd Hm. unfold signDataSha. destruct (ChainProofs3.data_slice (Data (d_name d) (d_meta d) (d_content d) (SigDigest None))) as (w1 & b & e & -> & Sl); [split; [exact Hd|]; split; [exact Hm|exact Logic.I]|]. cbn [rbind signed_part]. rewrite Sl.
    set (m := data_signed (Data (d_name d) (d_meta d) (d_content d) (SigDigest None))). set (d' := Data (d_name d) (d_meta d) (d_content d) (SigDigest (Some (sha m)))). assert (Em : data_signed d' = m) by reflexivity. assert (Dok : data_ok d') by (split; [exact Hd|]; split; [exact Hm|exact Logic.I]).
    destruct (ChainProofs3.data_slice d' Dok) as (w2 & b2 & e2 & E2 & Sl2). rewrite E2. cbn [rbind]. exists d'. split; [reflexivity|]. split; [rewrite Em; reflexivity|]. split.
    + apply (C92_data_verified load_public floor40 vrfy sha w d' None m); [split; [exact Dok|exact (eq_sym Em)]|]. reflexivity.
    + intros Sm prev. destruct (C18_data_round_trip prev d' Dok Sm) as ([b' e'] & E & D). exists (data_seen prev d'), (b', e'). split; [exact D|]. split; [reflexivity|]. rewrite E2 in E. injection E as -> -> ->.
      apply (C92_data_verified load_public floor40 vrfy sha w (data_seen prev d') (Some (data_bytes d', (b', e'))) m); [change (m = zslice (data_bytes d') b' e'); rewrite Sl2; symmetry; exact Em|]. reflexivity.
  - intros rn i Hi. unfold signInterestSha. set (sg := SigDigest None). rewrite (sign_info sg Logic.I). cbn [rbind]. cbv zeta. pose proof (digest_bytes None) as Sb. fold sg in Sb. destruct (sign_encode rn i sg Hi Sb) as (e & -> & Es). cbn [rbind]. rewrite Es, prefix_pair. cbn [rbind]. set (bits := sha (to_sign i sg)).
    change (SigDigest (Some bits)) with (sig_setBits sg (Some bits)). rewrite sign_value, <- app_assoc. cbn [app]. fold (attached i sg bits). do 3 eexists. split; [reflexivity|]. split; [reflexivity|]. intro Sm. assert (Sw : signed_with (attached i sg bits) (sig_setBits sg (Some bits))) by (apply attached_signed; [exact Logic.I|exact Sm|exact Logic.I]).
    split; [intro rn'; exact (proj1 (interest_later w rn' i sg bits _ Hi Sb (Hs _) Sw eq_refl))|exact (proj2 (interest_later w rn i sg bits _ Hi Sb (Hs _) Sw eq_refl))].
Qed.
(** HMAC: verification is true exactly when the signature is the HMAC of the signed portion with the key *)
Theorem C92_hmac_verified : forall key,
  (forall d cached m, data_covers d cached m -> exists r, verifyDataHmac hmac d cached key = Ok r /\ (r = true <-> sig_bits (d_sig d) = Some (hmac key m))) /\
  (forall rn i cached m, interest_covers i cached m -> (verifyInterestHmac hmac rn i cached key = Ok true <-> exists sg, signed_with i sg /\ sig_bits sg = Some (hmac key m)) /\
     (forall sg, signed_with i sg -> exists r, verifyInterestHmac hmac rn i cached key = Ok r)).
Proof.
  intro key. assert (Q : forall m bits, hmac_equal hmac key m bits = true <-> bits = Some (hmac key m)).
  { intros m [b|]; cbn; [|split; intro X; discriminate X]. rewrite zlist_eqb_eq. split; [intros ->; reflexivity|intros [= ->]; reflexivity]. }
  split.
  - intros d cached m H. destruct (data_enc d cached m H) as (e & E & S). unfold verifyDataHmac. rewrite E. cbn [rbind]. rewrite S. eexists. split; [reflexivity|]. apply Q.
  - intros rn i cached m H. destruct (interest_enc rn i cached m H) as (e & E & S). assert (A : forall sg, signed_with i sg -> verifyInterestHmac hmac rn i cached key = Ok (hmac_equal hmac key m (sig_bits sg))).
    { intros sg (pre & a & b & En & D). unfold verifyInterestHmac. destruct (two_last pre a b) as (_ & A2 & A3). rewrite En, A2, A3. cbn [rbind]. rewrite D. cbn [rbind]. rewrite E. cbn [rbind]. rewrite S. reflexivity. }
    split; [|intros sg Sw; eexists; exact (A sg Sw)]. split.
    + intro V. assert (Sw : exists sg, signed_with i sg).
      { unfold verifyInterestHmac in V. apply rbind_ok in V. destruct V as (a & Ea & V). apply rbind_ok in V. destruct V as (b & Eb & V). apply rbind_ok in V. destruct V as (sg & D & _). destruct (last_two (i_name i)) as [L|(pre & a' & b' & En)].
        - exfalso. destruct (i_name i) as [|x [|y l]]; [discriminate Ea|discriminate Ea|]. rewrite !zlen_cons in L. pose proof (zlen_nonneg _ l). lia.
        - destruct (two_last pre a' b') as (_ & A2 & A3). rewrite En in Ea, Eb. rewrite A2 in Ea. rewrite A3 in Eb. injection Ea as <-. injection Eb as <-. exists sg, pre, a', b'. auto. }
      destruct Sw as (sg & Sw). rewrite (A sg Sw) in V. injection V as V. apply Q in V. eauto.
    + intros (sg & Sw & Eb). rewrite (A sg Sw). f_equal. apply Q. exact Eb.
Qed.
(** What is signed with a key verifies with it; an Interest is not signed without a key name *)
Theorem C92_hmac : (forall k m, bytes_ok (hmac k m)) -> forall key,
  (forall d, data_ok d -> exists d', signDataHmac hmac d key = Ok d' /\ d_name d' = d_name d /\ d_content d' = d_content d /\ verifyDataHmac hmac d' None key = Ok true) /\
  (forall rn i k, interest_ok i -> name_ok k -> exists i' a b, signInterestHmac hmac rn i key (Some k) = Ok i' /\ i' = i_setName i (i_name i ++ [a; b]) /\ (small (i_name i') -> (exists bits, signed_with i' (SigHmac (KL (Some 1) k None) bits)) /\ forall rn', verifyInterestHmac hmac rn' i' None key = Ok true)) /\
  (forall rn i, signInterestHmac hmac rn i key None = Err SecurityException).
Proof.
  intros Hh key. split; [|split; [|reflexivity]].
  - intros d Dok. unfold signDataHmac. destruct (ChainProofs3.data_slice d Dok) as (w & b & e & -> & Sl). cbn [rbind signed_part]. rewrite Sl. eexists. split; [reflexivity|]. split; [reflexivity|]. split; [reflexivity|].
    set (d' := Data (d_name d) (d_meta d) (d_content d) (sig_setBits (d_sig d) (Some (hmac key (data_signed d))))). assert (Em : data_signed d' = data_signed d) by (unfold data_signed; cbn [d_name d_meta d_content d_sig]; destruct (d_sig d); reflexivity).
    assert (Do : data_ok d') by (destruct Dok as (A & B & C); split; [exact A|]; split; [exact B|]; cbn [d_sig]; destruct (d_sig d); exact C).
    destruct (C92_hmac_verified key) as [V _]. destruct (V d' None (data_signed d') (conj Do eq_refl)) as (r & E & R). rewrite E. f_equal. apply R. rewrite Em. cbn [d' d_sig]. destruct (d_sig d); reflexivity.
  - intros rn i k Hi Hk. unfold signInterestHmac. set (sg := SigHmac (KL (Some 1) k None) None). assert (So : sig_ok sg) by (left; split; [reflexivity|exact Hk]). assert (Sb : bytes_ok (siginfo sg)) by now apply hmac_bytes. rewrite (sign_info sg So). cbn [rbind]. cbv zeta. destruct (sign_encode rn i sg Hi Sb) as (e & -> & Es). cbn [rbind]. rewrite Es, prefix_pair. cbn [rbind]. set (bits := hmac key (to_sign i sg)).
    rewrite sign_value, <- app_assoc. cbn [app]. fold (attached i sg bits). do 3 eexists. split; [reflexivity|]. split; [reflexivity|]. intro Sm. assert (Sw : signed_with (attached i sg bits) (sig_setBits sg (Some bits))) by (apply attached_signed; [exact So|exact Sm|reflexivity]).
    split; [exists (Some bits); exact Sw|]. intro rn'. destruct (C92_hmac_verified key) as [_ V]. apply (V rn' (attached i sg bits) None (to_sign i sg) (attached_covers i sg bits Hi Sb (Hh _ _))). exists (sig_setBits sg (Some bits)). split; [exact Sw|reflexivity].
Qed.
End Signed.
