(** * C92: cases that meet the hypotheses, and what signing cannot promise *)
From Verif Require Import Base BaseLemmas NameModel NameSpec NameProofs UriModel BlobModel DictModel DerModel PkcsModel WireModel CtlModel MatchModel TlvSpec WireSpec IcertModel IcertSpec IcertProps IdmModel IdmSpec IdmProofs IdmProofs2 IdmProofs3 IdmProps IdmProps3
  SelfModel SelfSpec SelfProofs SelfProps SelfProps2.
From Verif Require WireProps.
Local Open Scope res_scope.

(** Private keys 7 and 9; the signature is the private key, and only that of 7 is accepted with its public key *)
Definition s_derive (p : Z) : res bytes := if p =? 7 then Ok ex_keyDer else Err SecurityException.
Definition s_sign (p alg : Z) (m : bytes) : res bytes := if (p =? 7) || (p =? 9) then Ok [p] else Err SecurityException.
Definition s_vrfy (b : bytes) (t : Z) (m sg : bytes) : bool := zlist_eqb sg [7].
Definition s_sha (m : bytes) : bytes := [zlen m mod 256].
Notation s_run := (run Z w_gen s_derive s_sign w_pkcs8 w_public ex_floor).
Notation s_verify := (verifyData Z w_public ex_floor s_vrfy s_sha).
Definition s_state : st Z := s_run [OCreate w_id 1 256 7 5000000 5000001] (st_init Z 0).
Definition s_data : data := Data [c_generic [98]] mi_empty (Some [1; 2; 3]) (SigDigest None).
Definition s_cert : name := w_id ++ [c_generic [75; 69; 89]; c_generic (ksk_text ++ [53; 48; 48; 48]); c_generic [73; 68; 45; 67; 69; 82; 84]; c_generic [253; 0; 76; 75; 65]].

Lemma s_crypto : crypto_ok s_derive s_sign w_public ex_floor s_vrfy.
Proof.
  split.
  - intros p b x t m sg D _ _ S. unfold s_derive in D. destruct (p =? 7) eqn:E; [|discriminate D]. apply Z.eqb_eq in E. subst p. unfold s_sign in S. change ((7 =? 7) || (7 =? 9)) with true in S. injection S as <-. reflexivity.
  - intros p m sg S. unfold s_sign in S. destruct ((p =? 7) || (p =? 9)) eqn:E; [|discriminate S]. injection S as <-. constructor; [|constructor]. apply orb_prop in E. unfold is_byte. destruct E as [E|E]; apply Z.eqb_eq in E; lia.
Qed.
Lemma s_own : own w_gen s_derive s_sign w_pkcs8 w_public ex_floor s_state.
Proof. exists true, 0, [OCreate w_id 1 256 7 5000000 5000001]. split; [apply Forall_cons; [split; [exact plain_w|lia]|apply Forall_nil]|]. split; [apply Forall_cons; [exact Logic.I|apply Forall_nil]|reflexivity]. Qed.
Lemma s_names : name_ok (d_name s_data) /\ mi_ok (d_meta s_data) /\ name_ok s_cert /\ versioned s_cert.
Proof.
  split; [constructor; [apply WireProps.gen_ok; reflexivity|constructor]|]. split; [split; [left; cbn; lia|]; split; [exact Logic.I|apply WireProps.gen_ok; reflexivity]|]. split.
  - unfold s_cert, w_id. cbn [app]. repeat (apply Forall_cons; [apply WireProps.gen_ok; reflexivity|]). apply Forall_nil.
  - exists (removelast s_cert), (c_generic [253; 0; 76; 75; 65]). split; [reflexivity|]. intros [_ X]. discriminate X.
Qed.
(** the hypotheses of C92_data and C92_by_identity: an identity is created, and Data is signed with it *)
Example C92_ex_data : exists d', signData Z s_sign s_data s_cert s_state = Ok d' /\ signByIdentity Z s_sign s_data w_id s_state = Ok d' /\ signByIdentity Z s_sign s_data [] s_state = Err SecurityException /\ signByIdentity Z s_sign s_data [] (s_run [OSetDefaultIdentity w_id] s_state) = Ok d' /\
  d_sig d' = SigEcdsa (KL (Some 1) (removelast s_cert) None) vp_none (Some [7]) /\ zlen (data_bytes d') < 2 ^ 64 /\ s_verify (SelfVerify Z (IdentityStore Z s_state)) d' None = Verified /\ s_verify (SelfVerify Z (IdentityStore Z (st_init Z 0))) d' None = Failed.
Proof. eexists. split; [vm_compute; reflexivity|]. split; [vm_compute; reflexivity|]. split; [vm_compute; reflexivity|]. split; [vm_compute; reflexivity|]. split; [vm_compute; reflexivity|]. split; [vm_compute; reflexivity|]. split; [vm_compute; reflexivity|vm_compute; reflexivity]. Qed.
(** the hypotheses of C92_interest *)
Example C92_ex_interest : interest_ok WireProps.ex_interest /\ exists i', signInterest Z s_sign [1; 2; 3; 4] WireProps.ex_interest s_cert s_state = Ok i' /\ small (i_name i') /\ blob_size (i_params WireProps.ex_interest) = 0 /\ zlen (interest02 i' (nonce4 [1; 2; 3; 4] (i_nonce WireProps.ex_interest))) < 2 ^ 64 /\
  verifyInterest Z w_public ex_floor s_vrfy s_sha (SelfVerify Z (IdentityStore Z s_state)) [] i' None = Verified.
Proof.
  split; [exact WireProps.ex_interest_ok|]. eexists. split; [vm_compute; reflexivity|]. split; [repeat (apply Forall_cons; [reflexivity|]); apply Forall_nil|]. split; [reflexivity|]. split; [vm_compute; reflexivity|vm_compute; reflexivity].
Qed.
(** The bytes are what is verified: with another content, or another signature, the same packet is refused *)
Example C92_ex_digest : exists d', signDataSha s_sha s_data = Ok d' /\ s_verify (SelfVerify Z (NoStore Z)) d' None = Verified /\ s_verify (SelfVerify Z (NoStore Z)) (Data (d_name d') (d_meta d') (Some [1]) (d_sig d')) None = Failed.
Proof. eexists. split; [vm_compute; reflexivity|]. split; [vm_compute; reflexivity|vm_compute; reflexivity]. Qed.

(** ** What does not hold *)
(** A certificate name that ends with ID-CERT is accepted for signing (a name without a version, as in a key locator),
    but the key locator is then too short: the KeyChain that has signed does not verify it. *)
Theorem C92_versionless_refuted : exists n d', name_ok n /\ key_name n w_key /\ signData Z s_sign s_data n s_state = Ok d' /\ s_verify (SelfVerify Z (IdentityStore Z s_state)) d' None = Failed.
Proof.
  exists (removelast s_cert). eexists. split; [|split; [apply C89_key_name; vm_compute; reflexivity|]; split; [vm_compute; reflexivity|vm_compute; reflexivity]].
  unfold s_cert, w_id. cbn [app removelast]. repeat (apply Forall_cons; [apply WireProps.gen_ok; reflexivity|]). apply Forall_nil.
Qed.
(** When setKeyPairForKeyName of the private key storage has replaced the private key, signing goes on without an error and
    the KeyChain does not verify what it signs. *)
Theorem C92_replaced_refuted : exists d', let s' := fst (perform Z w_gen s_derive s_sign w_pkcs8 w_public ex_floor (OSetKeyPair w_key 1 ex_keyDer []) s_state) in
  signByIdentity Z s_sign s_data w_id s' = Ok d' /\ s_verify (SelfVerify Z (IdentityStore Z s')) d' None = Failed.
Proof. eexists. cbv zeta. split; [vm_compute; reflexivity|vm_compute; reflexivity]. Qed.

Print Assumptions C92_data_verified.
Print Assumptions C92_interest_verified.
Print Assumptions C92_answered.
Print Assumptions C92_pib_refuted.
Print Assumptions C92_data.
Print Assumptions C92_by_identity.
Print Assumptions C92_interest.
Print Assumptions C92_sha.
Print Assumptions C92_hmac_verified.
Print Assumptions C92_hmac.
Print Assumptions C92_versionless_refuted.
Print Assumptions C92_replaced_refuted.
