(** * C67, C68, C69: KeyChain, concretely *)
From Verif Require Import Base BaseLemmas TlvSpec NameModel NameSpec NameProofs DictModel DictProofs WireModel WireSpec CtlModel SegPubProps CertProofs HierModel HierSpec HierProps PibModel PibSpec PibProps FrontModel FrontSpec FrontProofs FrontProofs5 FrontProps ChainModel ChainSpec ChainProofs ChainProofs2 ChainProofs3 ChainProofs4 ChainProofs5 ChainProofs6 ChainProofs7 ChainProps.
From Coq Require Import Permutation.

(** ** A concrete instance *)
Definition t_derive (p : bool) : bytes := [48; if p then 1 else 2].
Definition t_sign (r : Z) (p : bool) (m : bytes) : bytes := (if p then 1 else 2) :: r :: m.
Definition t_verify (b m s : bytes) : res bool := match s with y :: _ :: m' => Ok (zlist_eqb b [48; y] && zlist_eqb m m') | _ => Ok false end.
Definition t_type (b : bytes) : res Z := if zlist_eqb b [48; 1] then Ok KT_EC else if zlist_eqb b [48; 2] then Ok KT_RSA else Err ValueError.
Definition t_sha (m : bytes) : bytes := [7].
Definition t_load (b : bytes) (pw : option bytes) : res bool := match b with [x] => Ok (x =? 1) | _ => Err ValueError end.
Definition t_dump (p : bool) (pw : option bytes) : bytes := [if p then 1 else 2].
Definition t_ord (l : list name) : list name := l.
Notation t_exec := (kexec bool t_derive t_sign t_verify t_type t_sha t_load t_ord).
Notation t_run := (krun bool t_derive t_sign t_verify t_type t_sha t_load t_ord).
Notation t_begin := (begin bool t_ord).
Notation t_reach := (reach bool t_derive t_sign t_verify t_type t_sha t_load t_ord).
Lemma t_verify_ok : forall b r p m, t_verify b m (t_sign r p m) = Ok true <-> b = t_derive p.
Proof.
  intros b r p m. unfold t_verify, t_sign, t_derive. replace (zlist_eqb m m) with true by (symmetry; apply zlist_eqb_eq; reflexivity). rewrite Bool.andb_true_r. split.
  - intros [= E]. apply zlist_eqb_eq in E. exact E.
  - intros ->. f_equal. apply zlist_eqb_eq. reflexivity.
Qed.
Lemma t_crypto : crypto bool t_derive t_sign t_verify t_type t_sha.
Proof.
  split; [|split; [|split; [|split]]].
  - intros b t. unfold t_type. destruct (zlist_eqb b [48; 1]) eqn:E1; [|destruct (zlist_eqb b [48; 2]) eqn:E2]; intros [= <-]; [apply zlist_eqb_eq in E1|apply zlist_eqb_eq in E2]; subst b; (split; [discriminate|]); auto.
  - intros []; eexists; reflexivity.
  - intros p r m. apply t_verify_ok. reflexivity.
  - intros m. apply bytes_okb_ok. reflexivity.
  - intros b r p E. apply t_verify_ok in E. intros r' m. apply t_verify_ok, E.
Qed.
Lemma t_order : order t_ord. Proof. intros l. apply Permutation_refl. Qed.
Definition t_alice : name := [c_generic [97]].
Definition t_k1 : name := key_name t_alice (c_generic [49]).
Definition t_k2 : name := key_name t_alice (c_generic [50]).
Lemma t_names_ok : forall c, bytes_okb c = true -> name_ok (key_name t_alice (c_generic c)).
Proof. intros c H. repeat (apply Forall_cons; [apply generic_ok, bytes_okb_ok; first [exact H|reflexivity]|]). apply Forall_nil. Qed.
Lemma t_k1_ok : name_ok t_k1. Proof. apply t_names_ok. reflexivity. Qed.
Definition kp1 : keyparams := KeyParams KT_EC KI_USER (c_generic [49]).
Definition kp2 : keyparams := KeyParams KT_RSA KI_RANDOM (c_generic []).
Definition t_data : data := Data t_alice (MI 0 (-1) None (c_generic [])) (Some [5]) (SigDigest None).
Definition t_c1 : name := self_name t_k1 5000.
Lemma t_begins : begins bool t_sign t_verify t_type t_ord [] [].
Proof. split; [split; [constructor|intros k b E; discriminate E]|]. split; [constructor|]. split; [constructor|]. intros k b E. discriminate E. Qed.
(** Create an identity with a key, then a second key; sign with the default; delete the second key. *)
Definition t_h : handle := Handle t_alice 0.
Definition t_hk1 : handle := Handle t_k1 0.
Definition t_hk2 : handle := Handle t_k2 1.
Definition t_demo : list (kcall bool) :=
  [KCreateIdentity t_alice kp1 true [] 5000 0; KCreateKey t_h kp2 false [[49]; [50]] 6000 0; KSignData si_default 9 t_data; KDeleteKey t_h t_hk2].
Example C67_example : t_reach [] [] (t_run (t_begin [] []) t_demo) /\
  map (fun k => (snd (tpm_has bool k (t_run (t_begin [] []) t_demo)), hasKey (impl (k_pib (t_run (t_begin [] []) t_demo))) k)) [t_k1; t_k2] = [(Ok true, true); (Ok false, false)].
Proof.
  split; [|vm_compute; reflexivity]. split; [exact t_begins|]. exists t_demo. split; [|reflexivity]. assert (Va : Forall c_valid t_alice) by (apply validb_ok; reflexivity).
  unfold t_demo. cbn [all_kproper kproper]. set (s0 := t_begin [] []). split; [|].
  - split; [exact Va|]. split; [discriminate|]. split; [apply generic_valid; repeat constructor; unfold is_byte; lia|]. split; [constructor|]. split; [lia|]. intros E. discriminate E.
  - set (s1 := fst (t_exec _ s0)). split; [split|].
    + vm_compute. auto 20.
    + split; [discriminate|]. split; [apply generic_valid; constructor|]. split; [repeat constructor; unfold is_byte; lia|]. split; [lia|]. intros E. discriminate E.
    + split.
      * split; [vm_compute; split; discriminate|]. split; [constructor|]. split; [reflexivity|]. split; [intros hd E; discriminate E|]. split; [intros hd E; discriminate E|intros E; discriminate E].
      * split; [split|exact Logic.I]; vm_compute; auto 20.
Qed.
(** What signs: the default key of the default identity *)
Definition t_s1 : kstate bool := fst (t_exec (KCreateIdentity t_alice kp1 true [] 5000 0) (t_begin [] [])).
Lemma t_reach1 : t_reach [] [] t_s1.
Proof.
  split; [exact t_begins|]. exists [KCreateIdentity t_alice kp1 true [] 5000 0]. split; [|unfold t_s1, krun; cbn [fold_left]; reflexivity]. split; [|exact Logic.I]. split; [apply validb_ok; reflexivity|]. split; [discriminate|]. split; [apply generic_valid; repeat constructor; unfold is_byte; lia|]. split; [constructor|]. split; [lia|]. intros E. discriminate E.
Qed.
Example C68_example : signer [] (k_log t_s1) si_default (WithKey t_k1) /\ si_proper (k_log t_s1) si_default /\ signable si_default (WithKey t_k1) /\
  snd (t_exec (KSignData si_default 9 t_data) t_s1) = Ok (KData (with_sig t_data (SigEcdsa (KL (Some 1) t_k1 None) vp_none (Some (t_sign 9 true (data_signed (with_sig t_data (SigEcdsa (KL (Some 1) t_k1 None) vp_none None)))))))).
Proof.
  split; [|split; [|split; [|vm_compute; reflexivity]]].
  - split; [intros _; vm_compute; reflexivity|]. split; [intros X; discriminate X|]. split; [intros X; discriminate X|]. split; intros X; discriminate X.
  - split; [vm_compute; split; discriminate|]. split; [constructor|]. split; [reflexivity|]. split; [intros hd E; discriminate E|]. split; [intros hd E; discriminate E|intros E; discriminate E].
  - split; [left; vm_compute; reflexivity|]. intros k [= <-]. exact t_k1_ok.
Qed.
(** Signing with the name of a certificate succeeds though there is no such certificate
    (key_chain.py 1671-1689 only asks for its key). *)
Theorem C68_certificate_refuted : ~ (forall si rnd d x, si_type si = SI_CERT -> si_proper (k_log t_s1) si -> snd (t_exec (KSignData si rnd d) t_s1) = Ok (KData x) -> cert x_name (pib_hist bool [] t_s1) (si_name si) <> None).
Proof.
  intros X. set (n := t_k1 ++ [c_generic [120]; c_generic [121]]). eapply (X (si_ofCertificate n) 9 t_data _ eq_refl); [|vm_compute; reflexivity|vm_compute; reflexivity].
  split; [vm_compute; split; discriminate|]. split; [apply validb_ok; reflexivity|]. split; [reflexivity|]. split; [intros hd E; discriminate E|]. split; [intros hd E; discriminate E|]. intros _ kid s v E. discriminate E.
Qed.
(** With a key of the PIB whose private key is not in the TPM, signing gives a packet without a
    signature instead of an error. *)
Definition t_h0 : list (call data) := [AddKey t_alice t_k1 [48; 1]].
Theorem C68_missing_private_key_refuted : ~ (forall si rnd d x, si_proper (k_log (t_begin t_h0 [])) si -> snd (t_exec (KSignData si rnd d) (t_begin t_h0 [])) = Ok (KData x) -> sig_bits (d_sig x) <> None).
Proof.
  intros X. eapply (X (si_ofKey t_k1) 9 t_data); [|vm_compute; reflexivity|vm_compute; reflexivity].
  split; [vm_compute; split; discriminate|]. split; [apply validb_ok; reflexivity|]. split; [reflexivity|]. split; [intros hd E; discriminate E|]. split; [intros hd E; discriminate E|]. intros E. discriminate E.
Qed.
(** deleteIdentity of an identity of a PIB that was not empty at first leaves its private keys in
    the TPM: only the keys that were loaded are deleted (pib_key_container.py 137-148). *)
Lemma t_bits0 : forall k b, key_bits x_name x_content t_h0 k = Some b -> k = t_k1 /\ b = t_derive true.
Proof. intros k b E. unfold t_h0 in E. cbn [key_bits] in E. destruct (name_dec t_k1 k) as [N|N]; [|discriminate E]. injection E as E. split; [exact (eq_sym N)|exact (eq_sym E)]. Qed.
Lemma t_begins0 : begins bool t_sign t_verify t_type t_ord t_h0 [(t_k1, true)].
Proof.
  split; [split|].
  - constructor; [|constructor]. split; [apply validb_ok; reflexivity|]. split; [discriminate|]. eexists. reflexivity.
  - intros k b E. destruct (t_bits0 k b E) as [_ ->]. eexists. reflexivity.
  - split; [constructor; [apply validb_ok; reflexivity|constructor]|]. split; [repeat constructor; intros []|]. intros k b E. destruct (t_bits0 k b E) as [-> ->]. exists true. split; [vm_compute; reflexivity|]. intros r m. apply t_verify_ok. reflexivity.
Qed.
Theorem C67_delete_identity_refuted : ~ (forall h0 keys0 s i k, t_reach h0 keys0 s -> Forall c_valid i -> owner k = i -> private bool (fst (t_exec (KDeleteIdentityName i) s)) k = None).
Proof.
  intros X. specialize (X t_h0 [(t_k1, true)] (t_begin t_h0 [(t_k1, true)]) t_alice t_k1). assert (R : t_reach t_h0 [(t_k1, true)] (t_begin t_h0 [(t_k1, true)])) by (split; [exact t_begins0|]; exists []; split; [exact Logic.I|reflexivity]).
  specialize (X R ltac:(apply validb_ok; reflexivity) eq_refl). vm_compute in X. discriminate X.
Qed.
(** An identity with the empty name: createIdentityV2 raises, and leaves the private key in the TPM. *)
Theorem C67_root_identity_refuted : ~ (forall i kp gen rs now rnd k, let s := fst (t_exec (KCreateIdentity i kp gen rs now rnd) (t_begin [] [])) in private bool s k <> None -> hasKey (impl (k_pib s)) k = true).
Proof. intros X. specialize (X [] kp1 true [] 5000 0 (key_name [] (c_generic [49]))). cbv zeta in X. assert (Y : private bool (fst (t_exec (KCreateIdentity [] kp1 true [] 5000 0) (t_begin [] []))) (key_name [] (c_generic [49])) <> None) by (vm_compute; discriminate). specialize (X Y). vm_compute in X. discriminate X. Qed.
(** createIdentityV2 "creates a self-signed certificate if the default key does not have a default
    certificate" (key_chain.py 254-289): it raises a TypeError. *)
Theorem C69_default_certificate_refuted : ~ (forall s i kp gen rs now rnd, t_reach [] [] s -> Forall c_valid i -> params_proper bool t_derive t_sha s i kp gen rs now -> default_key [] (k_log s) i <> None ->
  snd (t_exec (KCreateIdentity i kp gen rs now rnd) s) <> Err TypeError).
Proof.
  intros X. assert (R : t_reach [] [] (fst (t_exec (KDeleteCertificate t_hk1 t_c1) t_s1))) by (apply reach_step; [exact t_reach1|]; split; [vm_compute; auto 20|apply validb_ok; reflexivity]).
  refine (X _ t_alice kp2 false [[51]] 7000 0 R _ _ _ _).
  - apply validb_ok; reflexivity.
  - split; [discriminate|]. split; [apply generic_valid; constructor|]. split; [repeat constructor; unfold is_byte; lia|]. split; [lia|]. intros E. discriminate E.
  - vm_compute. discriminate.
  - vm_compute. reflexivity.
Qed.
(** A self-signed certificate is not yet valid when it is made, if the clock is not at a whole second. *)
Theorem C69_valid_now_refuted : ~ (forall hk now, in_time now -> vp_isValid (period_of (self_info hk now)) now = true).
Proof. intros X. specialize (X t_hk1 1500 ltac:(unfold in_time; lia)). vm_compute in X. discriminate X. Qed.
(** The hypotheses of the theorems on new keys: a second key of the identity of [t_s1] *)
Example C69_example : crypto bool t_derive t_sign t_verify t_type t_sha /\ order t_ord /\ t_reach [] [] t_s1 /\ live_id (k_log t_s1) t_h /\
  params_proper bool t_derive t_sha t_s1 t_alice kp2 false [[49]; [50]] 6000 /\ new_id bool t_derive t_sha t_s1 t_alice kp2 false [[49]; [50]] (c_generic [50]) /\ in_time 6000 /\ name_ok (key_name t_alice (c_generic [50])) /\
  default_key [] (k_log t_s1) t_alice = Some t_k1 /\ def_cert x_name (pib_hist bool [] t_s1) t_k1 = Some t_c1.
Proof.
  split; [exact t_crypto|]. split; [exact t_order|]. split; [exact t_reach1|]. split; [vm_compute; auto 20|].
  split; [split; [discriminate|]; split; [apply generic_valid; constructor|]; split; [repeat constructor; unfold is_byte; lia|]; split; [lia|]; intros E; discriminate E|].
  split.
  - split; [left; reflexivity|]. split; [vm_compute; reflexivity|]. right. right. split; [reflexivity|]. exists [[49]], [50], []. split; [reflexivity|]. split; [reflexivity|]. split; [discriminate|]. constructor; [vm_compute; discriminate|constructor].
  - split; [unfold in_time; lia|]. split; [apply t_names_ok; reflexivity|]. split; vm_compute; reflexivity.
Qed.
(** The key [t_k1] moved to a new KeyChain *)
Example C69_example_transfer : exists c, snd (exportSafeBag bool t_dump c None t_s1) = Ok (c, [1]) /\ private bool t_s1 (owner (d_name c)) = Some true /\ belongs bool t_sign t_verify (x_content c) true /\ cert_checkFormat c = Ok tt /\
  t_type (x_content c) = Ok KT_EC /\ private bool (t_begin [] []) (owner (d_name c)) = None /\ t_load [1] None = Ok true /\
  getKeyBits (impl (k_pib (fst (t_exec (KImport c [1] None 0) (t_begin [] []))))) t_k1 = Ok (x_content c).
Proof.
  exists (with_sig (self_data t_k1 5000 [48; 1]) (SigDigest None)). split; [vm_compute; reflexivity|]. split; [vm_compute; reflexivity|]. split; [intros r m; apply t_verify_ok; reflexivity|]. repeat split; vm_compute; reflexivity.
Qed.
Print Assumptions C67_view.
Print Assumptions C67_keys.
Print Assumptions C67_no_orphans.
Print Assumptions C67_delete_key.
Print Assumptions C67_delete_identity.
Print Assumptions C68_signer.
Print Assumptions C68_data.
Print Assumptions C68_interest.
Print Assumptions C68_buffer.
Print Assumptions C68_signer_there.
Print Assumptions C69_create_identity.
Print Assumptions C69_existing_identity.
Print Assumptions C69_create_key.
Print Assumptions C69_self_sign.
Print Assumptions C69_validity.
Print Assumptions C69_transfer.
Print Assumptions C69_failed_import.
Print Assumptions C68_certificate_refuted.
Print Assumptions C68_missing_private_key_refuted.
Print Assumptions C67_delete_identity_refuted.
Print Assumptions C67_root_identity_refuted.
Print Assumptions C69_default_certificate_refuted.
Print Assumptions C69_valid_now_refuted.
