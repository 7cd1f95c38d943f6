(** * The whole flow of name-based access control: proofs *)
From Verif Require Import Base BaseLemmas TlvSpec NameModel NameSpec NameProofs DictModel DictProofs WireModel WireSpec CtlModel CtlSpec CtlProps CertProofs HierModel HierSpec HierProps PibModel PibSpec PibProps FrontModel FrontSpec FrontProofs FrontProofs5 BagModel BagProps ChainModel ChainSpec ChainProofs ChainProofs2 ChainProofs5 ChainProofs6 ChainProofs7 ChainProps CmdProps NacModel NacSpec NacProofs NacProofs3 NacExamples EncModel EncSpec EncExamples AmModel AmSpec.

Section A.
Variable P : Type.
Variable derive : P -> bytes.
Variable psign : Z -> P -> bytes -> bytes.
Variable pverify : bytes -> bytes -> bytes -> res bool.
Variable ktype : bytes -> res Z.
Variable sha : bytes -> bytes.
Variable load : bytes -> option bytes -> res P.
Variable dump : P -> option bytes -> bytes.
Variable ord : list name -> list name.
Variable pdec : P -> bytes -> res bytes.
Variable penc : Z -> bytes -> bytes -> res bytes.
Variable cbc cbc_inv : bytes -> bytes -> bytes -> res bytes.
Variable credentials : name.
Notation dstate := (dstate P).
Notation kstate := (kstate P).
Notation d_step := (d_step P psign pverify ktype load ord pdec cbc_inv credentials).
Notation d_run := (d_run P psign pverify ktype load ord pdec cbc_inv credentials).
Notation crypto := (crypto P derive psign pverify ktype sha).
Notation reach := (reach P derive psign pverify ktype sha load ord).
Notation base := (base P ktype).
Notation coherent := (coherent P psign pverify).
Notation belongs := (belongs P psign pverify).
Notation quiet := (quiet P).

Lemma nk : forall k, n_equals k k = true. Proof. apply eq_refl_n. Qed.
(** decrypt of a request for a new CK *)
Lemma step_decrypt : forall s r e a k iv, kl_type (ec_keyLocator e) = Some 1 -> kl_name (ec_keyLocator e) = k -> ec_iv e = Some iv -> dget n_equals (d_keys s) k = None ->
  exists keys, fst (d_step (EDecrypt r e (Some a)) s) = DState keys (dset Z.eqb (d_pend s) a (PCk k N_RETRIES r)) (d_chain s) (d_out s ++ [Send a k true false]) /\ dget n_equals keys k = Some (CKey None a [(r, e)]).
Proof.
  intros s r e a k iv Ht Hk Hi Hn. cbn [NacModel.d_step]. unfold decrypt. rewrite Ht, Hi, Hk. cbn [Z.eqb Pos.eqb negb]. cbv zeta. unfold bind at 1, get. rewrite Hn. cbn [ck_bits ck_pending ck_queue app].
  cbv [bind set_key put fetch_ck express emit set_pending the_ck get]. cbn [d_keys d_pend d_chain d_out fst]. rewrite dget_dset by apply nk. cbn [ck_bits ck_queue].
  eexists. split; [reflexivity|]. apply dget_dset, nk.
Qed.
Lemma known_not : forall h0 s i c, order ord -> base h0 s -> coherent h0 s -> Forall c_valid (kdk_key_name i c) -> i <> [] -> private P s (kdk_key_name i c) = None ->
  exists s', kdk_known P ktype ord i (kdk_key_name i c) s = (s', Ok false) /\ base h0 s' /\ quiet h0 s s'.
Proof.
  intros h0 s i c Or B Co V Ni Pn. set (k := kdk_key_name i c) in *. assert (Ak : a_key k). { exists i, c. split; [exact Ni|reflexivity]. } assert (Eo : owner k = i) by apply owner_key.
  destruct (of_key_ok P ktype ord Or h0 s k B V Ak) as (s' & B' & Q & X). rewrite (coh_none P psign pverify h0 s k Co Pn) in X. rewrite Eo in X. exists s'. split; [|auto]. unfold kdk_known. destruct X as [E|(hd & s1 & E1 & E2)].
  - unfold bind at 1. rewrite (catch_err _ _ _ _ _ _ s' OtherError); [reflexivity|]. apply bind_err, an_id_err, E.
  - unfold bind at 1. rewrite (catch_ok _ _ _ _ _ _ s1 (Some hd)); [|rewrite (bind_ok _ _ _ _ _ _ _ _ (an_id_ok P _ _ _ _ E1)); reflexivity]. rewrite (catch_err _ _ _ _ _ _ s' OtherError); [reflexivity|]. apply bind_err, an_key_err, E2.
Qed.

Ltac mo := cbv [bind set_key put fetch_kdk express emit set_pending the_ck get take ret lift inchain catch]; cbn [d_keys d_pend d_chain d_out fst snd ck_bits ck_queue ck_pending].
(** The CK Data arrives, and the KDK is not known. *)
Lemma step_ck : forall h0 s r a b d cred rnd k i c e q, order ord -> base h0 (d_chain s) -> coherent h0 (d_chain s) -> Forall c_valid (kdk_key_name i c) -> i <> [] -> private P (d_chain s) (kdk_key_name i c) = None ->
  dget Z.eqb (d_pend s) a = Some (PCk k q r) -> dget n_equals (d_keys s) k = Some (CKey None a e) -> d_name d = ck_data_name k i c ->
  exists keys pend chain, fst (d_step (EData a d cred rnd (Some b)) s) = DState keys pend chain (d_out s ++ [Send b (kdk_data_name i c credentials) false true]) /\
    dget Z.eqb pend b = Some (PKdk k (i ++ [N_KDK; c]) d N_RETRIES r) /\ dget n_equals keys k = Some (CKey None b e) /\ base h0 chain /\ quiet h0 (d_chain s) chain.
Proof.
  intros h0 s r a b d cred rnd k i c e q Or B Co V Ni Pn Hp Hk Hd. destruct (known_not h0 (d_chain s) i c Or B Co V Ni Pn) as (c' & Ec & B' & Q). cbn [NacModel.d_step]. unfold bind at 1, take. rewrite Hp. unfold on_ck. rewrite Hd, kdk_info_ok.
  mo. rewrite Hk. cbn [ck_bits ck_queue]. rewrite Ec. mo. rewrite dget_dset by apply nk. cbn [ck_bits ck_queue]. do 3 eexists. split; [|split; [apply dget_dset, Z.eqb_refl|]; split; [apply dget_dset, nk|]; split; [exact B'|exact Q]].
  unfold kdk_name, kdk_data_name. rewrite <- app_assoc. reflexivity.
Qed.
Lemma member_ok : forall p x m, pdec p x = Ok m -> member_key pdec p x = Ok (Some m).
Proof. intros p x m E. unfold member_key. rewrite E. reflexivity. Qed.
(** The KDK Data arrives: the KDK is imported, and the requests are answered. *)
Lemma step_kdk : forall h0 s r b d kdk cred rnd k i c l q x e e' w cert key secret p bits ct pk ty, order ord -> crypto -> base h0 (d_chain s) -> coherent h0 (d_chain s) -> private P (d_chain s) (kdk_key_name i c) = None ->
  dget Z.eqb (d_pend s) b = Some (PKdk k (i ++ [N_KDK; c]) d q r) -> dget n_equals (d_keys s) k = Some (CKey None b l) ->
  decode_content (d_content kdk) = Ok e -> ec_payload e = Some w -> sb_wireDecode w = Ok (SafeBag cert (Some key)) -> ec_payloadKey e = Some pk -> cred pk = Ok (Some secret) ->
  load key (Some secret) = Ok p -> cert_checkFormat cert = Ok tt -> Forall c_valid (d_name cert) -> owner (d_name cert) = kdk_key_name i c -> i <> [] -> ktype (x_content cert) = Ok ty -> belongs (x_content cert) p ->
  decode_content (d_content d) = Ok e' -> ec_payload e' = Some ct -> pdec p ct = Ok bits ->
  d_out (fst (d_step (EData b kdk cred rnd x) s)) = d_out s ++ map (fun a => Answer (fst a) (do_decrypt cbc_inv (snd a) bits)) l.
Proof.
  intros h0 s r b d kdk cred rnd k i c l q x e e' w cert key secret p bits ct pk ty Or Cr B Co Pn Hp Hk D1 D2 D3 D4 D5 Ld Ck Vc Ow Ni Ty Be D6 D7 D8. pose proof Cr as (C1 & C2 & C3 & C4 & C5).
  assert (Nr : forall kid v w', d_name cert <> cert_name [] kid v w'). { intros kid v w' E. rewrite E in Ow. change (cert_name [] kid v w') with (key_name [] kid ++ [v; w']) in Ow. rewrite owner_app2 in Ow. destruct i as [|a i]; [congruence|]. apply (f_equal (@length _)) in Ow. unfold kdk_key_name in Ow. rewrite app_length in Ow. cbn in Ow. lia. }
  destruct (import_ok P psign pverify ktype ord Or h0 load C5 (d_chain s) cert key (Some secret) rnd B Co Vc Nr) as (c' & rr & E & K & _ & F & _). rewrite Ow in F. destruct (F p ty Ck Pn Ld Ty (Be _ _)) as (-> & _ & Pv & _). assert (Vk : nval (kdk_key_name i c)) by (rewrite <- Ow; apply owner_val, Vc).
  destruct (ChainProofs2.find_ok P ktype h0 c' (kdk_key_name i c) (proj1 K) Vk) as (c2 & Ef & _). rewrite Pv in Ef.
  cbn [NacModel.d_step]. unfold bind at 1, take. rewrite Hp. unfold on_kdk. rewrite kdk_key_of_ok. unfold import_kdk, decrypt_ck. rewrite D6, D1. mo. rewrite Hk, D2. mo. cbn [to_bytes]. rewrite D3. mo. rewrite D4. mo. cbn [to_bytes sb_key sb_certificate]. rewrite D5. mo. cbn [to_bytes]. rewrite E. mo. rewrite D7. cbn [to_bytes negb]. unfold tpm_decrypt. mo.
  rewrite Ef. mo. rewrite D8. mo. rewrite dget_dset by apply nk. cbn [ck_bits ck_queue ck_pending].
  match goal with |- context [answer_all _ _ _ _ ?s0] => set (s1 := s0) end. assert (X : forall l0 s0, answer_all P cbc_inv bits l0 s0 = (DState (d_keys s0) (d_pend s0) (d_chain s0) (d_out s0 ++ map (fun a => Answer (fst a) (do_decrypt cbc_inv (snd a) bits)) l0), Ok tt)).
  { induction l0 as [|[r1 e1] l0 IH]; intros s0; cbn [answer_all map]; [rewrite app_nil_r; destruct s0; reflexivity|]. unfold bind, emit, put. rewrite IH. cbn [d_keys d_pend d_chain d_out fst snd]. rewrite <- app_assoc. reflexivity. }
  rewrite X. mo. reflexivity.
Qed.
End A.
