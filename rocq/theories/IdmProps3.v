(** * C91, continued: prepared certificates; witnesses *)
From Verif Require MatchProps ChainProofs3 ConsProofs.
From Verif Require Import Base BaseLemmas NameModel NameSpec NameProofs UriModel UriSpec UriProofs UriProps BlobModel DictModel DictProofs DerModel DerSpec DerProps PkcsModel CalProofs TlvSpec WireModel WireSpec WireProofs WireProofs5 WireProps IcertModel IcertSpec IcertProps IdmModel IdmSpec IdmProofs IdmProofs2 IdmProofs3 IdmProps IdmProps2.
Local Open Scope res_scope.

(** ** Certificates for another signer *)
Lemma ok_inj : forall A (a b : A), Ok a = Ok b -> a = b.
Proof. intros A a b [= H]. exact H. Qed.
Lemma match_prefix : forall p q, n_match_values p (p ++ q) = true.
Proof. induction p as [|x p IH]; intro q; [reflexivity|]. cbn [app n_match_values]. rewrite IH. unfold blob_equals. assert (zlist_eqb (c_value x) (c_value x) = true) by now apply zlist_eqb_eq. exact H. Qed.
Lemma match_removelast : forall k, n_match (removelast k) k = true.
Proof.
  intro k. unfold n_match. destruct k as [|x k] using rev_ind; [reflexivity|]. rewrite removelast_last, match_prefix. replace (zlen (k ++ [x]) <? zlen k) with false by zlia. reflexivity.
Qed.
Lemma sub_from : forall p k, n_match p k = true -> n_getSubName k (zlen p) None = Ok (skipn (length p) k).
Proof.
  intros p k H. unfold n_match in H. destruct (zlen k <? zlen p) eqn:E; [discriminate H|]. assert (L : (length p <= length k)%nat) by (unfold zlen in E; lia). pose proof (zlen_nonneg _ p) as Z0.
  assert (Q : n_getSubName k (zlen p) None = n_getSubName k (zlen p) (Some (zlen k - zlen p))) by (unfold n_getSubName; replace (zlen p <? 0) with false by lia; reflexivity). rewrite Q, n_getSubName_ok by (pose proof (zlen_nonneg _ k); lia). cbv zeta. replace (zlen p <? 0) with false by lia. f_equal.
  transitivity (zslice (firstn (length p) k ++ skipn (length p) k ++ []) (zlen p) (zlen p + (zlen k - zlen p))); [rewrite app_nil_r, firstn_skipn; reflexivity|]. apply zslice_app'; unfold zlen; rewrite ?firstn_length, ?skipn_length; lia.
Qed.
(** The key id of a name that is accepted: ksk- or dsk- *)
Definition key_id (l : comp) : Prop := exists r, c_toEscapedString l = [107; 115; 107; 45] ++ r \/ c_toEscapedString l = [100; 115; 107; 45] ++ r.
Lemma fold_subjects : forall subjects c, ic_subjects (fold_left (fun c s => add_subject s c) subjects c) = ic_subjects c ++ subjects /\
  let c' := fold_left (fun c s => add_subject s c) subjects c in ic_data c' = ic_data c /\ ic_notBefore c' = ic_notBefore c /\ ic_notAfter c' = ic_notAfter c /\ ic_key c' = ic_key c /\ ic_extensions c' = ic_extensions c /\ ic_publicKeyName c' = ic_publicKeyName c.
Proof.
  induction subjects as [|x l IH]; intro c; cbn [fold_left]; [rewrite app_nil_r; auto 10|]. destruct (IH (add_subject x c)) as (A & B). cbv zeta in B. rewrite A. cbn [add_subject ic_subjects]. rewrite <- app_assoc. split; [reflexivity|]. exact B.
Qed.
(** prepareUnsignedIdentityCertificate: the last component of the key name is a key id; the word KEY is
    put after a prefix of the key name: the one that is given, or else the signing identity, or else the
    identity of the key. The certificate has the key and the times, and the descriptions that are given, or
    else the identity of the key. Its key name is the name of the key when the prefix, as it was given,
    begins the key name and does not contain the word KEY. *)
Theorem C91_prepare : forall k x signing notBefore notAfter now subjects certPrefix c, 0 <= now -> prepareCertificate k x signing notBefore notAfter now subjects certPrefix = Ok (Some c) ->
  exists i l p v q, k = i ++ [l] /\ key_id l /\ match certPrefix with Some q => p = q | None => p = signing \/ p = i /\ n_match signing k = false end /\ c_fromVersion now = Ok v /\
    d_name (ic_data c) = p ++ [c_generic [75; 69; 89]] ++ q ++ [c_generic [73; 68; 45; 67; 69; 82; 84]; v] /\ q = skipn (length p) k /\ (k = p ++ q -> no_key_word p -> ic_publicKeyName c = Some k) /\
    ic_notBefore c = notBefore /\ ic_notAfter c = notAfter /\ ic_key c = x /\ ic_extensions c = [] /\ (subjects <> [] -> ic_subjects c = subjects) /\ (subjects = [] -> plain i -> ic_subjects c = [Subject (IsOid [2; 5; 4; 41]) (n_toUri i false)]) /\
    ic_encode c = Ok c.
Proof.
  intros k x signing nb na now subjects certPrefix c Hn H. unfold prepareCertificate in H. destruct (zlen k <? 1) eqn:Z0; [discriminate H|]. assert (Nk : k <> []) by (intros ->; discriminate Z0). destruct (split_last_comp k Nk) as (l & El). set (i := removelast k) in *.
  assert (Gl : py_getitem k (-1) = Ok l) by (rewrite El; apply MatchProps.last_getitem). rewrite Gl in H. cbn [rbind] in H. cbv zeta in H. destruct (zlen (c_toEscapedString l) <? 4) eqn:Z4; [discriminate H|].
  destruct (negb (zlist_eqb (firstn 4 (c_toEscapedString l)) ksk_text) && negb (zlist_eqb (firstn 4 (c_toEscapedString l)) dsk_text)) eqn:Ek; [discriminate H|].
  assert (Kid : key_id l).
  { rewrite <- (firstn_skipn 4 (c_toEscapedString l)) in *. exists (skipn 4 (c_toEscapedString l)). unfold key_id. destruct (zlist_eqb (firstn 4 (c_toEscapedString l)) ksk_text) eqn:E1.
    - left. apply zlist_eqb_eq in E1. rewrite <- (firstn_skipn 4 (c_toEscapedString l)) at 1. rewrite E1. reflexivity.
    - destruct (zlist_eqb (firstn 4 (c_toEscapedString l)) dsk_text) eqn:E2; [|exfalso; rewrite firstn_skipn in Ek; rewrite E1, E2 in Ek; discriminate Ek]. right. apply zlist_eqb_eq in E2. rewrite <- (firstn_skipn 4 (c_toEscapedString l)) at 1. rewrite E2. reflexivity. }
  apply rbind_ok in H. destruct H as (o & Eo & H). destruct o as [n|]; [|discriminate H].
  assert (Gn : exists p v, match certPrefix with Some q => p = q | None => p = signing \/ p = i /\ n_match signing k = false end /\ c_fromVersion now = Ok v /\ n = p ++ [c_generic key_text] ++ skipn (length p) k ++ [c_generic id_cert; v]).
  { destruct certPrefix as [q|].
    - destruct (n_match q k) eqn:Em; [|discriminate Eo]. cbn [andb] in Eo. destruct (negb (n_equals q k)); [|discriminate Eo]. rewrite (sub_from q k Em) in Eo. cbn [rbind] in Eo. apply rbind_ok in Eo. destruct Eo as (v & Ev & Eo). injection Eo as <-. exists q, v. auto.
    - destruct (n_match signing k) eqn:Em.
      + rewrite (sub_from signing k Em) in Eo. cbn [rbind] in Eo. apply rbind_ok in Eo. destruct Eo as (v & Ev & Eo). injection Eo as <-. exists signing, v. auto.
      + rewrite prefix_last in Eo. cbn [rbind] in Eo. apply rbind_ok in Eo. destruct Eo as (v & Ev & Eo). injection Eo as <-. exists i, v. split; [auto|]. split; [exact Ev|]. replace (skipn (length i) k) with [l]; [reflexivity|]. rewrite El at 1. rewrite skipn_app, skipn_all, Nat.sub_diag. reflexivity. }
  destruct Gn as (p & v & Hp & Ev & En). apply rbind_ok in H. destruct H as (c1 & E1 & H). apply set_name_ok in E1. destruct E1 as (kk & -> & Kn). cbn [set_key set_notAfter set_notBefore] in H. apply rbind_ok in H. destruct H as (c2 & E2 & H).
  destruct (ic_encode c2) as [c3|] eqn:Ee; [|discriminate H]. injection H as ->. exists i, l, p, v, (skipn (length p) k). split; [exact El|]. split; [exact Kid|]. split; [exact Hp|]. split; [exact Ev|].
  destruct (version_plain now v Hn Ev) as (_ & r & Er).
  assert (Fr : ic_data c = Data n (MI 2 (-1) None (c_generic [])) (d_content (ic_data c)) (SigRsa kl_empty vp_none None) /\ ic_notBefore c = nb /\ ic_notAfter c = na /\ ic_key c = x /\ ic_extensions c = [] /\ ic_publicKeyName c = Some kk /\ ic_subjects c = ic_subjects c2 /\ ic_encode c = Ok c).
  { assert (F2 : ic_data c2 = Data n mi_empty None (SigRsa kl_empty vp_none None) /\ ic_notBefore c2 = nb /\ ic_notAfter c2 = na /\ ic_key c2 = x /\ ic_extensions c2 = [] /\ ic_publicKeyName c2 = Some kk).
    { destruct (zlen subjects =? 0); [rewrite prefix_last in E2; cbn [rbind] in E2; apply rbind_ok in E2; destruct E2 as (text & _ & E2); apply ok_inj in E2; subst c2; cbn [add_subject ic_data ic_notBefore ic_notAfter ic_key ic_extensions ic_publicKeyName]; repeat (split; [reflexivity|]); reflexivity|]. apply ok_inj in E2; subst c2. match goal with |- context [fold_left _ subjects ?c0] => destruct (fold_subjects subjects c0) as (_ & B1 & B2 & B3 & B4 & B5 & B6) end. rewrite B1, B2, B3, B4, B5, B6. cbn [ic_data ic_notBefore ic_notAfter ic_key ic_extensions ic_publicKeyName]. repeat (split; [reflexivity|]). reflexivity. }
    destruct F2 as (F1 & F2 & F3 & F4 & F5 & F6). unfold ic_encode in Ee. destruct (ic_toDer c2) as [root|] eqn:Et; [|discriminate Ee]. cbn [rbind] in Ee. injection Ee as <-. cbn [ic_setData ic_data ic_notBefore ic_notAfter ic_key ic_extensions ic_publicKeyName ic_subjects d_content]. rewrite F1. cbn [d_name d_meta d_sig mi_other mi_freshness mi_final mi_empty].
    split; [reflexivity|]. split; [exact F2|]. split; [exact F3|]. split; [exact F4|]. split; [exact F5|]. split; [exact F6|]. split; [reflexivity|]. unfold ic_encode. match goal with |- context [ic_toDer ?c0] => change (ic_toDer c0) with (ic_toDer c2) end. rewrite Et. reflexivity. }
  destruct Fr as (F1 & F2 & F3 & F4 & F5 & F6 & F7 & F8). split; [rewrite F1; exact En|]. split; [reflexivity|]. split.
  { intros Epq Nw. rewrite F6. f_equal. apply (key_name_fun n); [exact Kn|]. rewrite En. set (q := skipn (length p) k) in *. rewrite Epq. exists p, (c_generic key_text), q, (c_generic id_cert), [v]. split; [cbn [app]; reflexivity|]. split; [apply word_key|]. split; [apply word_cert|]. split; [exact Nw|]. split; [|reflexivity]. apply Forall_cons; [|apply Forall_nil]. rewrite Er. intros [_ X]. discriminate X. }
  split; [exact F2|]. split; [exact F3|]. split; [exact F4|]. split; [exact F5|]. split; [|split; [|exact F8]].
  - intro Ns. rewrite F7. destruct subjects as [|sx sl]; [congruence|]. replace (zlen (sx :: sl) =? 0) with false in E2 by (rewrite zlen_cons; pose proof (zlen_nonneg _ sl); lia). apply ok_inj in E2; subst c2. match goal with |- context [fold_left _ ?ss ?c0] => destruct (fold_subjects ss c0) as (A & _) end. cbn [ic_subjects app] in A. exact A.
  - intros -> Hi. rewrite F7. change (zlen (@nil subject) =? 0) with true in E2. cbv iota in E2. rewrite prefix_last in E2. fold i in E2. cbn [rbind] in E2. rewrite (utf8_ascii _ (ascii_uri i Hi)) in E2. cbn [rbind] in E2. apply ok_inj in E2; subst c2. reflexivity.
Qed.
(** No certificate is prepared for an empty name, for a name without a key id, or with a prefix that is
    the whole name or does not match. *)
Theorem C91_prepare_refused : forall k x signing notBefore notAfter now subjects certPrefix,
  k = [] \/ (exists i l, k = i ++ [l] /\ ~ key_id l) \/ (exists q, certPrefix = Some q /\ (q = k \/ n_match q k = false)) ->
  prepareCertificate k x signing notBefore notAfter now subjects certPrefix = Ok None.
Proof.
  intros k x signing nb na now subjects certPrefix H. unfold prepareCertificate. destruct (zlen k <? 1) eqn:Z0; [reflexivity|]. assert (Nk : k <> []) by (intros ->; discriminate Z0). destruct (split_last_comp k Nk) as (l & El). set (i := removelast k) in *.
  assert (Gl : py_getitem k (-1) = Ok l) by (rewrite El; apply MatchProps.last_getitem). rewrite Gl. cbn [rbind]. cbv zeta. destruct (zlen (c_toEscapedString l) <? 4) eqn:Z4; [reflexivity|].
  destruct (negb (zlist_eqb (firstn 4 (c_toEscapedString l)) ksk_text) && negb (zlist_eqb (firstn 4 (c_toEscapedString l)) dsk_text)) eqn:Ek; [reflexivity|]. destruct H as [H|[(i' & l' & E & N)|(q & -> & Q)]]; [contradiction| |].
  - exfalso. rewrite El in E. apply app_inj_tail in E. destruct E as [_ <-]. apply N. exists (skipn 4 (c_toEscapedString l)). destruct (zlist_eqb (firstn 4 (c_toEscapedString l)) ksk_text) eqn:E1.
    + left. apply zlist_eqb_eq in E1. rewrite <- (firstn_skipn 4 (c_toEscapedString l)) at 1. rewrite E1. reflexivity.
    + destruct (zlist_eqb (firstn 4 (c_toEscapedString l)) dsk_text) eqn:E2; [|discriminate Ek]. right. apply zlist_eqb_eq in E2. rewrite <- (firstn_skipn 4 (c_toEscapedString l)) at 1. rewrite E2. reflexivity.
  - destruct Q as [->| ->]; [|reflexivity]. assert (R : n_equals k k = true).
    { clear. induction k as [|a k IH]; [reflexivity|]. cbn [n_equals]. rewrite IH. cbn [andb]. apply ConsProofs.c_equals_iff; auto. }
    rewrite R, andb_false_r. reflexivity.
Qed.

(** ** The default identity; deleting *)
Theorem C91_default_identity : forall P i (s : st P), plain i -> getDefaultIdentity P (setDefaultIdentity P i s) = if doesIdentityExist P i s then Ok i else Err SecurityException.
Proof.
  intros P i s Hi. unfold setDefaultIdentity. destruct (doesIdentityExist P i s); [|reflexivity]. unfold getDefaultIdentity. cbn [dflt set_dflt]. replace (zlen (uri i) =? 0) with false; [|pose proof (uri_nonempty i); destruct (uri i) as [|a u]; [congruence|]; rewrite zlen_cons; pose proof (zlen_nonneg _ u); lia].
  unfold uri. pose proof (C12_uri_round_trip i [] false Hi (or_introl eq_refl)) as X. rewrite app_nil_r in X. exact X.
Qed.
(** (Witness.) In this storage no identity is ever deleted: the default identity is left, and for any
    other RuntimeError is raised. *)
Theorem C91_delete_refuted : forall P i (s : st P), fst (deleteIdentity P i s) = s /\ (getDefaultIdentity P s = Err SecurityException -> snd (deleteIdentity P i s) = Err RuntimeError) /\ (forall j, getDefaultIdentity P s = Ok j -> snd (deleteIdentity P i s) = if n_equals j i then Ok tt else Err RuntimeError).
Proof.
  intros P i s. unfold deleteIdentity. destruct (getDefaultIdentity P s) as [j|e]; [split; [destruct (n_equals j i); reflexivity|]; split; [discriminate|intros j' [= <-]; destruct (n_equals j i); reflexivity]|]. split; [destruct e; reflexivity|]. split; [intros [= ->]; reflexivity|discriminate].
Qed.

(** ** Witnesses and examples
    A private key is a number; the public key of each is [ex_keyDer]; a signature is the number. *)
Definition w_gen (t size r : Z) : res Z := if t =? 1 then Ok r else Err SecurityException.
Definition w_derive (p : Z) : res bytes := Ok ex_keyDer.
Definition w_sign (p alg : Z) (m : bytes) : res bytes := Ok [p].
Definition w_pkcs8 (b : bytes) (t : Z) : res Z := Ok 9.
Definition w_public (b : bytes) : res unit := Ok tt.
Notation w_perform := (perform Z w_gen w_derive w_sign w_pkcs8 w_public ex_floor).
Notation w_run := (run Z w_gen w_derive w_sign w_pkcs8 w_public ex_floor).
Definition w_id : name := [c_generic [97]].
Definition w_state : st Z := w_run [OCreate w_id 1 256 7 5000000 5000001] (st_init Z 0).
Definition w_key : name := w_id ++ [c_generic (ksk_text ++ [53; 48; 48; 48])].

Lemma plain_w : plain w_id.
Proof. apply Forall_cons; [apply plain_generic; apply bytes_okb_ok; reflexivity|apply Forall_nil]. Qed.
Lemma floor_w : floor_ok ex_floor.
Proof. intros n. unfold ex_floor. intros; try reflexivity; auto. Qed.
(** The hypotheses of C91_create_first and C91_create are met: the first identity of a program *)
Example C91_ex_first : exists s' n, reached w_gen w_derive w_sign w_pkcs8 w_public ex_floor true s' /\ w_perform (OCreate w_id 1 256 7 5000000 5000001) (st_init Z 0) = (s', Ok (Some n)) /\
  n = w_id ++ [c_generic [75; 69; 89]; c_generic (ksk_text ++ [53; 48; 48; 48]); c_generic [73; 68; 45; 67; 69; 82; 84]; c_generic [253; 0; 76; 75; 65]] /\
  getDefaultKeyNameForIdentity Z w_id s' = Ok w_key /\ getDefaultCertificateNameForIdentity Z w_id s' = Ok n /\ exists c, getCertificate Z w_public ex_floor n s' = Ok c /\ ic_publicKeyName c = Some w_key /\ ic_notBefore c = 5000000 /\ d_sig (ic_data c) = SigEcdsa (KL (Some 1) (removelast n) None) vp_none (Some [7]).
Proof.
  exists w_state. eexists. split; [exists 0, [OCreate w_id 1 256 7 5000000 5000001]; split; [apply Forall_cons; [split; [exact plain_w|lia]|apply Forall_nil]|reflexivity]|]. split; [vm_compute; reflexivity|]. split; [vm_compute; reflexivity|]. split; [vm_compute; reflexivity|]. split; [vm_compute; reflexivity|].
  eexists. split; [vm_compute; reflexivity|]. split; [reflexivity|]. split; [reflexivity|]. vm_compute. reflexivity.
Qed.
Example C91_ex_types : forall t size r p b y, w_gen t size r = Ok p -> w_derive p = Ok b -> pk_new w_public ex_floor b = Ok y -> pk_type y = Some t.
Proof. intros t size r p b y H [= <-] E. unfold w_gen in H. destruct (t =? 1) eqn:Et; [|discriminate H]. apply Z.eqb_eq in Et. subst t. vm_compute in E. injection E as <-. reflexivity. Qed.
Example C91_ex_known : known_key w_public ex_key ex_keyDer 1.
Proof. destruct C89_ex as ((_ & _ & _ & _ & _ & _ & K & _) & _). exact K. Qed.
(** (Witness.) With KEY in the identity the certificate that is made names another key: creating raises
    SecurityException, and what was stored before stays. *)
Theorem C91_key_word_refuted : exists i s', plain i /\ w_perform (OCreate i 1 256 7 5000000 5000001) (st_init Z 0) = (s', Err SecurityException) /\ doesIdentityExist Z i s' = true /\ exists k, getDefaultKeyNameForIdentity Z i s' = Ok k /\ doesKeyExist Z k s' = true.
Proof.
  exists [c_generic [97]; c_generic [75; 69; 89]; c_generic [98]]. eexists. split; [repeat (apply Forall_cons; [apply plain_generic; apply bytes_okb_ok; reflexivity|]); apply Forall_nil|]. split; [vm_compute; reflexivity|]. split; [vm_compute; reflexivity|]. eexists. split; vm_compute; reflexivity.
Qed.
(** (Witness.) The private key storage lets a key pair be replaced: the certificate, and getPublicKey, still have
    the public key of before, and a signature with the certificate name is made by the other private key. *)
Theorem C91_replaced_key_refuted : exists pub priv n d, getDefaultCertificateNameForIdentity Z w_id w_state = Ok n /\ key_name n w_key /\ let s' := fst (w_perform (OSetKeyPair w_key 1 pub priv) w_state) in
  (exists x, getPublicKey Z w_public ex_floor w_key s' = Ok x /\ getPublicKey Z w_public ex_floor w_key w_state = Ok x) /\ getDefaultCertificateNameForIdentity Z w_id s' = Ok n /\
  signData Z w_sign d n w_state = Ok (Data (d_name d) (d_meta d) (d_content d) (by_key 1 (removelast n) (Some [7]))) /\ signData Z w_sign d n s' = Ok (Data (d_name d) (d_meta d) (d_content d) (by_key 1 (removelast n) (Some [9]))).
Proof.
  exists ex_keyDer, []. eexists. exists (Data w_id mi_empty None (SigDigest None)). split; [vm_compute; reflexivity|]. split; [apply C89_key_name; vm_compute; reflexivity|]. cbv zeta. split; [eexists; split; vm_compute; reflexivity|]. split; [vm_compute; reflexivity|]. split; vm_compute; reflexivity.
Qed.
(** (Witness.) A certificate that is not in the storage can be made the default: its name is then returned by
    createIdentityAndCertificate, and getCertificate does not find it. *)
Theorem C91_not_stored_refuted : exists c s' n, cert_named c /\ s' = fst (w_perform (OSetDefaultCert c) w_state) /\ w_perform (OCreate w_id 1 256 7 5000000 5000001) s' = (s', Ok (Some n)) /\ getCertificate Z w_public ex_floor n s' = Err SecurityException.
Proof.
  exists (ICert (Data (w_id ++ [c_generic [75; 69; 89]; c_generic (ksk_text ++ [53; 48; 48; 48]); c_generic [73; 68; 45; 67; 69; 82; 84]; c_generic [1]]) mi_empty None (SigDigest None)) 0 0 [] [] pk_empty (Some w_key)). eexists. exists (w_id ++ [c_generic [75; 69; 89]; c_generic (ksk_text ++ [53; 48; 48; 48]); c_generic [73; 68; 45; 67; 69; 82; 84]; c_generic [1]]). split.
  - split; [cbn [ic_data d_name]; repeat (apply Forall_cons; [apply plain_generic; apply bytes_okb_ok; reflexivity|]); apply Forall_nil|]. exists w_key. split; [reflexivity|]. apply C89_key_name. vm_compute. reflexivity.
  - split; [reflexivity|]. split; [vm_compute; reflexivity|].
    vm_compute. reflexivity.
Qed.
(** A prepared certificate: /a/KEY/ksk-5000/ID-CERT/%FD%00LKA, as the identity /a is to sign it *)
Example C91_ex_prepare : exists c, prepareCertificate w_key (PK (Some ex_keyDer) (Some 1)) w_id 0 1000 5000001 [] None = Ok (Some c) /\ ic_publicKeyName c = Some w_key /\ ic_subjects c = [Subject (IsOid [2; 5; 4; 41]) [47; 97]].
Proof. eexists. split; [vm_compute; reflexivity|]. split; reflexivity. Qed.

Print Assumptions C91_kept.
Print Assumptions C91_defaults.
Print Assumptions C91_new_key.
Print Assumptions C91_create.
Print Assumptions C91_create_first.
Print Assumptions C91_sign.
Print Assumptions C91_sign_refused.
Print Assumptions C91_prepare.
Print Assumptions C91_prepare_refused.
Print Assumptions C91_default_identity.
Print Assumptions C91_delete_refuted.
Print Assumptions C91_key_word_refuted.
Print Assumptions C91_replaced_key_refuted.
Print Assumptions C91_not_stored_refuted.
