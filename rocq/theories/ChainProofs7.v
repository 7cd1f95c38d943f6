(** * KeyChain: signing, importing, creating an identity; every call *)
From Verif Require Import Base BaseLemmas TlvSpec NameModel NameSpec NameProofs DictModel DictProofs WireModel WireSpec CtlModel SegPubProps CertProofs HierModel HierSpec HierProps PibModel PibSpec PibProps FrontModel FrontSpec FrontProofs FrontProofs5 FrontProps ChainModel ChainSpec ChainProofs ChainProofs2 ChainProofs3 ChainProofs4 ChainProofs5 ChainProofs6.
From Coq Require Import Permutation.

Section K.
Variable P : Type.
Variable derive : P -> bytes.
Variable psign : Z -> P -> bytes -> bytes.
Variable pverify : bytes -> bytes -> bytes -> res bool.
Variable ktype : bytes -> res Z.
Variable sha : bytes -> bytes.
Variable ord : list name -> list name.
Hypothesis Ho : forall l, Permutation l (ord l).
Hypothesis Hkt : forall b t, ktype b = Ok t -> b <> [] /\ (t = KT_RSA \/ t = KT_EC).
Hypothesis Hder : forall p, exists t, ktype (derive p) = Ok t.
Hypothesis Hver : forall p, belongs P psign pverify (derive p) p.
Hypothesis Hsha : forall m, bytes_ok (sha m).
Variable h0 : list (call data).
Notation call := (call data).
Notation trace := (trace data).
Notation kstate := (kstate P).
Notation km := (sm kstate).
Notation hist := (hist x_name).
Notation ident := (ident x_name).
Notation def_id := (def_id x_name).
Notation key_bits := (key_bits x_name x_content).
Notation cert := (cert x_name).
Notation def_key := (def_key x_name x_content).
Notation def_cert := (def_cert x_name).
Notation pcall := (pcall P ktype ord).
Notation nget := (dget n_equals).
Notation Hist s := (hist h0 (k_log s)).
Notation dkey s i := (default_key h0 (k_log s) i).
Notation base := (base P ktype h0).
Notation quiet := (quiet P h0).
Notation coherent := (coherent P psign pverify h0).
Notation no_orphans := (no_orphans P h0).
Notation private := (private P).
Notation public := (public P h0).
Notation sign_data := (sign_data P psign ktype sha ord).
Notation signature_by := (signature_by P psign pverify ktype sha h0).
Notation selfSign := (selfSign P psign ktype sha ord).
Notation createKey := (createKey P derive psign ktype sha ord).
Notation createIdentity := (createIdentity P derive psign ktype sha ord).
Notation tpm_create := (tpm_create P derive sha).
Notation tpm_delete := (tpm_delete P).
Notation tpm_deletes := (tpm_deletes P).
Notation new_id := (new_id P derive sha).
Notation lives_on := (lives_on P).
Notation params_proper := (params_proper P derive sha).
Variable load : bytes -> option bytes -> res P.
Hypothesis Htest : forall b r p, pverify b [1; 2; 3; 4] (psign r p [1; 2; 3; 4]) = Ok true -> belongs P psign pverify b p.
Notation new_key := (new_key P derive h0).
Notation kept := (kept P psign pverify ktype h0).
Notation keeps_k := (keeps_k P psign pverify ktype h0).
Notation prepare := (prepare P ktype ord).
Notation signBuffer := (signBuffer P psign sha).
Notation sign_interest := (sign_interest P psign ktype sha ord).
Notation sign_buffer := (sign_buffer P psign ktype sha ord).
Notation importSafeBag := (importSafeBag P psign pverify ktype load ord).
Lemma Hkt7 : forall b t, ktype b = Ok t -> t = KT_RSA \/ t = KT_EC. Proof. intros b t E. apply (Hkt b t E). Qed.

Lemma kept_ext : forall s s', base s' -> coherent s -> (forall k, key_bits (Hist s') k = key_bits (Hist s) k) -> (forall k, nval k -> private s' k = private s k) -> kept s s'.
Proof.
  intros s s' B Co Kb Pv. split; [exact B|]. split.
  - intros k b E. unfold ChainSpec.public, pib_hist in E. destruct (key_there P ktype h0 s' k b B E) as (_ & Vk & _). rewrite Kb in E. rewrite Pv by exact Vk. apply Co, E.
  - intros _ Or k p V E. unfold ChainSpec.public, pib_hist. rewrite Kb. rewrite Pv in E by exact V. exact (Or k p V E).
Qed.

(** ** Signing *)
Lemma a_key_dec : forall k, {a_key k} + {~ a_key k}.
Proof.
  intros k. destruct (key_of_dec (owner k) k) as [H|N]; [left; destruct H as (Ni & kid & E); exists (owner k), kid; auto|right]. intros (i & kid & Ni & E). apply N. rewrite E, owner_key. split; [exact Ni|eauto].
Qed.
Lemma signer_total : forall t si, si_proper t si -> exists w, signer h0 t si w.
Proof.
  intros t si (T & Vn & _ & _ & _ & Hc). unfold signer, SI_NULL, SI_ID, SI_KEY, SI_CERT, SI_SHA256 in *. assert (C : si_type si = 0 \/ si_type si = 1 \/ si_type si = 2 \/ si_type si = 3 \/ si_type si = 4) by lia.
  destruct C as [C|[C|[C|[C|C]]]]; rewrite C.
  - eexists. split; [reflexivity|]. repeat split; discriminate.
  - destruct (si_identity si); (eexists; split; [discriminate|]; split; [reflexivity|]; repeat split; discriminate).
  - destruct (si_key si) as [hk|]; [eexists; split; [discriminate|]; split; [discriminate|]; split; [reflexivity|]; repeat split; discriminate|].
    destruct (a_key_dec (si_name si)) as [A|N].
    + eexists. split; [discriminate|]. split; [discriminate|]. split; [|split; discriminate]. intros _. split; [reflexivity|intros X; contradiction].
    + exists BadName. split; [discriminate|]. split; [discriminate|]. split; [|split; discriminate]. intros _. split; [intros X; contradiction|reflexivity].
  - destruct (a_cert_dec (si_name si)) as [A|N].
    + eexists. split; [discriminate|]. split; [discriminate|]. split; [discriminate|]. split; [|discriminate]. intros _. split; [reflexivity|]. intros X. destruct A as (i & kid & s & v & _ & E). destruct (X i kid s v E).
    + exists BadName. split; [discriminate|]. split; [discriminate|]. split; [discriminate|]. split; [|discriminate]. intros _. split; [intros X; contradiction|reflexivity].
  - exists Digest. repeat split; try discriminate.
Qed.
Lemma prepare_sign : forall s si rnd, base s -> si_proper (k_log s) si -> exists s1 r1, prepare si s = (s1, r1) /\ base s1 /\ quiet s s1 /\
  forall sg k, r1 = Ok (sg, k) -> forall m, exists s2 bits, signBuffer rnd m k DA_SHA256 s1 = (s2, Ok bits) /\ base s2 /\ quiet s s2.
Proof.
  intros s si rnd B Ps. destruct (signer_total _ _ Ps) as [w W]. destruct (prepare_ok P ktype ord Ho Hkt7 h0 s si w B Ps W) as (s1 & r1 & E1 & B1 & Q1 & R1). exists s1, r1. split; [exact E1|]. split; [exact B1|]. split; [exact Q1|]. intros sg k -> m.
  destruct w as [|k'| |]; cbn [prepared] in R1; try discriminate R1.
  - injection R1 as -> ->. exists s1. eexists. split; [apply signBuffer_digest|]. auto.
  - destruct R1 as (b & ty & Eb & _ & [= -> ->]). destruct (key_there P ktype h0 s k' b B Eb) as (Ak & V & _). destruct (signBuffer_key P psign ktype sha h0 s1 rnd m k' B1 V Ak) as (s2 & E2 & B2 & Q2). exists s2. eexists. split; [exact E2|]. split; [exact B2|exact (quiet_trans P h0 _ _ _ Q1 Q2)].
Qed.
Lemma sign_buffer_quiet : forall s si rnd m, base s -> si_proper (k_log s) si -> exists s' r, sign_buffer si rnd m s = (s', r) /\ base s' /\ quiet s s'.
Proof.
  intros s si rnd m B Ps. destruct (prepare_sign s si rnd B Ps) as (s1 & r1 & E1 & B1 & Q1 & F). unfold ChainModel.sign_buffer. destruct Ps as (_ & _ & Dg & _). rewrite Dg. destruct r1 as [[sg k]|e].
  - rewrite (bind_ok _ _ _ _ _ _ _ _ E1). cbn [snd]. destruct (F sg k eq_refl m) as (s2 & bits & E2 & B2 & Q2). eauto.
  - rewrite (bind_err _ _ _ _ _ _ _ _ E1). eauto.
Qed.
Lemma sign_interest_quiet : forall s si rnd rn i, base s -> si_proper (k_log s) si -> exists s' r, sign_interest si rnd rn i s = (s', r) /\ base s' /\ quiet s s'.
Proof.
  intros s si rnd rn i B Ps. destruct (prepare_sign s si rnd B Ps) as (s1 & r1 & E1 & B1 & Q1 & F). unfold ChainModel.sign_interest. destruct Ps as (_ & _ & Dg & _). rewrite Dg. destruct r1 as [[sg k]|e].
  2: { rewrite (bind_err _ _ _ _ _ _ _ _ E1). eauto. }
  rewrite (bind_ok _ _ _ _ _ _ _ _ E1). cbn [fst snd]. destruct (encodeSignatureInfo sg) as [info|er].
  2: { do 2 eexists. split; [reflexivity|]. auto. }
  rewrite (bind_ok _ _ _ (lift (Ok info)) _ s1 s1 _ eq_refl). cbv zeta. destruct (encodeInterest _ _) as [e|er].
  2: { do 2 eexists. split; [reflexivity|]. auto. }
  rewrite (bind_ok _ _ _ (lift (Ok e)) _ s1 s1 _ eq_refl). destruct (F sg k eq_refl (signed_bytes e)) as (s2 & bits & E2 & B2 & Q2). rewrite (bind_ok _ _ _ _ _ _ _ _ E2). destruct (n_getPrefix _ _) as [p|er]; (do 2 eexists; split; [reflexivity|]; auto).
Qed.
Lemma sign_data_quiet : forall s si rnd d, base s -> si_proper (k_log s) si -> exists s' r, sign_data si rnd d s = (s', r) /\ base s' /\ quiet s s'.
Proof. intros s si rnd d B Ps. destruct (signer_total _ _ Ps) as [w W]. destruct (sign_data_frame P psign ktype sha ord Ho Hkt7 h0 s si w rnd d B Ps W) as (s' & r & E & B' & Q & _). eauto. Qed.

(** ** createIdentity *)
Lemma params_same : forall s s1 i kp gen rs now, t_keys (k_tpm s1) = t_keys (k_tpm s) -> (params_proper s i kp gen rs now -> params_proper s1 i kp gen rs now) /\ (forall c, new_id s i kp gen rs c <-> new_id s1 i kp gen rs c).
Proof. intros s s1 i kp gen rs now T. unfold ChainSpec.params_proper, ChainSpec.new_id, ChainSpec.private. rewrite T. split; [auto|]. intros c. reflexivity. Qed.
Theorem createIdentity_ok : forall s i kp gen rs now rnd, base s -> coherent s -> Forall c_valid i -> params_proper s i kp gen rs now ->
  exists s' r, createIdentity i kp gen rs now rnd s = (s', r) /\ kept s s' /\ lives_on s s' /\
   (forall k x, dkey s i = Some k -> def_cert (Hist s) k = Some x -> exists hd, r = Ok hd /\ h_name hd = i /\ live_id (k_log s') hd /\ (forall n, cert (Hist s') n = cert (Hist s) n) /\ (forall k', public s' k' = public s k') /\ t_keys (k_tpm s') = t_keys (k_tpm s) /\ (forall j, dkey s' j = dkey s j)) /\
   (forall k, dkey s i = Some k -> def_cert (Hist s) k = None -> r = Err TypeError) /\
   (forall c, dkey s i = None -> new_id s i kp gen rs c -> in_time now -> name_ok (key_name i c) -> exists hd sg b hk, let k := key_name i c in let x := with_sig (self_data k now (derive gen)) (sg (Some b)) in
      r = Ok hd /\ h_name hd = i /\ live_id (k_log s') hd /\ h_name hk = k /\ (forall j, dkey s' j = if name_dec i j then Some k else dkey s j) /\ public s' k = Some (derive gen) /\ (forall k', nval k' -> private s' k' = if name_dec k k' then Some gen else private s k') /\
      def_cert (Hist s') k = Some (d_name x) /\ cert (Hist s') (d_name x) = Some x /\
      signature_by s' (self_info hk now) (WithKey k) rnd (data_signed x) sg b).
Proof.
  intros s i kp gen rs now rnd B Co Vi Pp. unfold ChainModel.createIdentity.
  destruct (m_addIdentity P ktype ord Ho h0 s i B Vi) as (s1 & hd & E1 & N1 & L1 & B1 & T1 & V1 & I1 & Kb1 & Ct1 & Dc1 & Dk1 & H1). rewrite (bind_ok _ _ _ _ _ _ _ _ (an_id_ok P _ _ _ _ E1)).
  assert (K1 : kept s s1) by (apply kept_same; auto; rewrite T1; reflexivity). assert (T1' : t_keys (k_tpm s1) = t_keys (k_tpm s)) by (rewrite T1; reflexivity).
  destruct (r_default_key P ktype ord Ho h0 s1 hd B1 L1) as (s2 & B2 & Q2 & A2). rewrite N1, Dk1 in A2. assert (K2 : kept s s2) by (apply (kept_trans _ _ _ _ _ _ _ _ K1); apply kept_quiet; [exact B2|apply K1|exact Q2]).
  assert (L2 : lives_on s s2) by (apply (lives_trans P _ _ _ V1), (quiet_lives P h0), Q2). assert (Lh2 : live_id (k_log s2) hd) by (apply (quiet_lives P h0 _ _ Q2), L1).
  destruct (dkey s i) as [k|] eqn:Ed.
  - destruct A2 as (hk & E2 & N2 & Lk2). unfold bind at 1. rewrite (catch_ok _ _ _ _ _ _ _ _ (an_key_ok P _ _ _ _ E2)).
    destruct (r_default_cert P ktype ord Ho h0 s2 hk B2 Lk2) as (s3 & B3 & Q3 & A3). rewrite N2, (quiet_hist P h0 _ _ Q2), Dc1 in A3. assert (K3 : kept s s3) by (apply (kept_trans _ _ _ _ _ _ _ _ K2); apply kept_quiet; [exact B3|apply K2|exact Q3]). pose proof (quiet_trans P h0 _ _ _ Q2 Q3) as Q.
    destruct (def_cert (Hist s) k) as [n|] eqn:En.
    + destruct A3 as (x & Ex & E3). unfold bind at 1. rewrite (catch_ok _ _ _ _ _ s2 s3 tt); [|rewrite (bind_ok _ _ _ _ _ _ _ _ (an_cert_ok P _ _ _ _ E3)); reflexivity]. do 2 eexists. split; [reflexivity|]. split; [exact K3|]. split; [apply (lives_trans P _ _ _ L2), (quiet_lives P h0), Q3|].
      split; [|split; [intros k' [= <-] X; congruence|intros c X; discriminate X]].
      intros k' x' _ _. exists hd. split; [reflexivity|]. split; [exact N1|]. split; [apply (quiet_lives P h0 _ _ Q3), Lh2|]. unfold ChainSpec.public, pib_hist. rewrite (quiet_hist P h0 _ _ Q). split; [exact Ct1|]. split; [exact Kb1|]. split; [rewrite <- T1'; apply Q|]. intros j. rewrite (quiet_dkey P h0 _ _ j Q). apply Dk1.
    + unfold bind at 1. rewrite (catch_err _ _ _ _ _ s2 s3 OtherError); [|apply bind_err, an_cert_err, A3]. cbn [is_pib_error raise]. do 2 eexists. split; [reflexivity|]. split; [exact K3|]. split; [apply (lives_trans P _ _ _ L2), (quiet_lives P h0), Q3|].
      split; [intros k' x' [= <-] X; congruence|]. split; [reflexivity|intros c X; discriminate X].
  - assert (T2 : t_keys (k_tpm s2) = t_keys (k_tpm s)) by (rewrite <- T1'; apply Q2). destruct (params_same s s2 i kp gen rs now T2) as [Pp2 Nw2].
    destruct (createKey_ok P derive psign pverify ktype sha ord Ho Hkt Hder Hver Hsha h0 s2 hd kp gen rs now rnd B2) as (s3 & r3 & E3 & B3 & Co3 & L3 & O3 & C3 & F3); [apply K2|exact Lh2|rewrite N1; apply Pp2, Pp|]. rewrite N1 in C3, F3.
    assert (K3 : kept s s3) by (apply (kept_trans _ _ _ _ _ _ _ _ K2); split; [exact B3|]; split; [exact Co3|auto]).
    assert (Dn : forall j, dkey s2 j = dkey s j) by (intros j; rewrite (quiet_dkey P h0 _ _ j Q2); apply Dk1).
    destruct C3 as [[e ->]|(c & hk & sg & -> & Nw & N3 & Lk3 & H3 & D3)].
    + unfold bind at 1. rewrite (catch_err _ _ _ _ _ s1 s2 OtherError); [|apply an_key_err, A2]. cbn [is_pib_error]. rewrite E3. do 2 eexists. split; [reflexivity|]. split; [exact K3|]. split; [exact (lives_trans P _ _ _ L2 L3)|]. split; [intros k x X; discriminate X|]. split; [intros k X; discriminate X|].
      intros c _ Nw Ti Nm. destruct (F3 c (proj1 (Nw2 c) Nw) Ti Nm) as (? & ? & ? & X & _). discriminate X.
    + assert (Bd : forall A (k : handle -> km A), bind (catch is_pib_error (an_key P (pcall (FDefaultKey hd))) (createKey hd kp gen rs now rnd)) k s1 = k hk s3) by (intros A k; unfold bind at 1; rewrite (catch_err _ _ _ _ _ s1 s2 OtherError); [|apply an_key_err, A2]; cbn [is_pib_error]; rewrite E3; reflexivity). rewrite Bd. clear Bd.
      set (k := key_name i c) in *. destruct (r_default_cert P ktype ord Ho h0 s3 hk B3 Lk3) as (s4 & B4 & Q4 & A4). rewrite N3 in A4.
      assert (Kn : key_bits (Hist s2) k = None) by (apply (coh_none P psign pverify h0); [apply K2|apply Nw]). destruct (no_key_no_cert P ktype h0 s2 k B2 Kn) as [Dn2 Cn2].
      assert (Dc : def_cert (Hist s3) k = Some (self_name k now)). { rewrite H3. cbn [PibSpec.def_cert]. rewrite Dn2. cbn [x_name d_name with_sig self_data]. assert (Ow : owner (self_name k now) = k) by apply owner_app2. rewrite Ow. destruct (name_dec k k); [reflexivity|congruence]. }
      rewrite Dc in A4. destruct A4 as (x & Ex & E4). unfold bind at 1. rewrite (catch_ok _ _ _ _ _ s3 s4 tt); [|rewrite (bind_ok _ _ _ _ _ _ _ _ (an_cert_ok P _ _ _ _ E4)); reflexivity].
      assert (K4 : kept s s4) by (apply (kept_trans _ _ _ _ _ _ _ _ K3); apply kept_quiet; [exact B4|exact Co3|exact Q4]).
      do 2 eexists. split; [reflexivity|]. split; [exact K4|]. split; [apply (lives_trans P _ _ _ (lives_trans P _ _ _ L2 L3)), (quiet_lives P h0), Q4|]. split; [intros k' x' X; discriminate X|]. split; [intros k' X; discriminate X|].
      intros c' _ Nw' Ti Nm. destruct (F3 c' (proj1 (Nw2 c') Nw') Ti Nm) as (hk' & sg' & b & Ehk & (N3' & _ & H3' & D3') & Pv & Sb). injection Ehk as <-. unfold ChainProofs5.new_key in *. assert (c' = c). { rewrite N3 in N3'. unfold k, key_name in N3'. apply app_inv_head in N3'. congruence. } subst c'. fold k in H3', Pv, Sb, D3'.
      exists hd, sg', b, hk. cbv zeta. fold k. split; [reflexivity|]. split; [exact N1|]. split; [apply (quiet_lives P h0 _ _ Q4); apply L3, Lh2|]. split; [exact N3|]. split; [intros j; rewrite (quiet_dkey P h0 _ _ j Q4), D3', Dn; destruct (name_dec i j) as [<-|]; [rewrite Ed; reflexivity|destruct (dkey s j); reflexivity]|].
      unfold ChainSpec.public, pib_hist. rewrite (quiet_hist P h0 _ _ Q4).
      split; [rewrite H3'; cbn [PibSpec.key_bits]; cbn [x_name d_name with_sig self_data]; (assert (Ow : owner (self_name k now) = k) by apply owner_app2); rewrite Ow; destruct (name_dec k k); [reflexivity|congruence]|].
      split; [intros k' V'; rewrite (quiet_private P h0 _ _ k' Q4), Pv by exact V'; destruct (name_dec k k'); [reflexivity|]; unfold ChainSpec.private; rewrite T2; reflexivity|].
      split; [exact Dc|]. split; [rewrite H3'; cbn [PibSpec.cert]; cbn [x_name d_name with_sig self_data]; destruct (name_dec (self_name k now) (self_name k now)); [reflexivity|congruence]|].
      destruct Sb as (b0 & ty0 & p0 & G1 & G2 & G3 & G4). exists b0, ty0, p0. unfold ChainSpec.public, pib_hist in *. rewrite (quiet_hist P h0 _ _ Q4), (quiet_private P h0 _ _ k Q4). auto.
Qed.

(** ** importSafeBag *)
Theorem import_ok : forall s c bag pw rnd, base s -> coherent s -> Forall c_valid (d_name c) -> (forall kid v w, d_name c <> cert_name [] kid v w) ->
  let k := owner (d_name c) in
  exists s' r, importSafeBag c bag pw rnd s = (s', r) /\ kept s s' /\ lives_on s s' /\
   (forall p ty, cert_checkFormat c = Ok tt -> private s k = None -> load bag pw = Ok p -> ktype (x_content c) = Ok ty -> pverify (x_content c) [1; 2; 3; 4] (psign rnd p [1; 2; 3; 4]) = Ok true ->
      r = Ok tt /\ public s' k = Some (x_content c) /\ private s' k = Some p /\ cert (Hist s') (d_name c) = Some c) /\
   ((exists e, r = Err e) -> forall k', nval k' -> public s' k' = public s k' /\ private s' k' = private s k').
Proof.
  intros s c bag pw rnd B Co Vc Nr k. unfold ChainModel.importSafeBag. cbv zeta.
  assert (Stay : forall s', base s' -> quiet s s' -> kept s s' /\ lives_on s s' /\ forall k', public s' k' = public s k' /\ private s' k' = private s k').
  { intros s' B' Q. split; [apply kept_quiet; assumption|]. split; [apply (quiet_lives P h0), Q|]. intros k'. split; [unfold ChainSpec.public, pib_hist; rewrite (quiet_hist P h0 _ _ Q); reflexivity|apply (quiet_private P h0 _ _ k' Q)]. }
  destruct (cert_checkFormat c) as [[]|e] eqn:Ef.
  2: { destruct (Stay s B (quiet_refl P h0 s)) as (S1 & S2 & S3). do 2 eexists. split; [reflexivity|]. split; [exact S1|]. split; [exact S2|]. split; [intros p ty X; discriminate X|auto]. }
  rewrite (bind_ok _ _ _ (lift (Ok tt)) _ s s tt eq_refl). assert (Ac : a_cert (d_name c)). { apply (C53_format c Vc) in Ef. destruct Ef as ((i & kid & iss & v & E) & _). exists i, kid, iss, v. split; [|exact E]. intros ->. exact (Nr _ _ _ E). }
  destruct (a_cert_owner _ Ac) as (Ak & _ & Eg & Ei). rewrite Ei, Eg. fold k in Ak |- *. rewrite (bind_ok _ _ _ (lift (Ok (owner k))) _ s s _ eq_refl), (bind_ok _ _ _ (lift (Ok k)) _ s s _ eq_refl). assert (Vk : nval k) by (apply owner_val, Vc).
  rewrite (bind_ok _ _ _ (tpm_has P k) _ s s (match private s k with Some _ => true | None => false end)); [|unfold tpm_has, get; rewrite private_in; reflexivity].
  destruct (private s k) as [p0|] eqn:Ep.
  { destruct (Stay s B (quiet_refl P h0 s)) as (S1 & S2 & S3). do 2 eexists. split; [reflexivity|]. split; [exact S1|]. split; [exact S2|]. split; [intros p ty _ X; discriminate X|auto]. }
  assert (Kn : key_bits (Hist s) k = None) by (apply (coh_none P psign pverify h0); assumption).
  destruct (of_key_ok P ktype ord Ho h0 s k B Vk Ak) as (s1 & B1 & Q1 & A1). rewrite Kn in A1.
  match goal with |- context [bind (catch is_pib_error ?m ?h) ?f s] => assert (E1 : catch is_pib_error m h s = (s1, Ok tt)) end.
  { destruct A1 as [E|(hd & s0 & E & E')].
    - rewrite (catch_err _ _ is_pib_error _ _ _ _ _ (bind_err _ _ _ _ _ _ _ _ (an_id_err P _ _ _ _ E))). reflexivity.
    - erewrite catch_err; cycle 1; [rewrite (bind_ok _ _ _ _ _ _ _ _ (an_id_ok P _ _ _ _ E)); apply bind_err, an_key_err, E'|reflexivity]. }
  rewrite (bind_ok _ _ _ _ _ _ _ _ E1). clear E1. destruct (Stay s1 B1 Q1) as (S1 & S2 & S3).
  destruct (load bag pw) as [p|e] eqn:El.
  2: { match goal with |- context [bind (catch any_exn ?m ?h) ?f s1] => assert (E1 : catch any_exn m h s1 = (s1, Err RuntimeError)) end.
    { unfold tpm_import, catch, bind, get. rewrite private_in, (proj2 (S3 k)), Ep, El. reflexivity. }
    rewrite (bind_err _ _ _ _ _ _ _ _ E1). do 2 eexists. split; [reflexivity|]. split; [exact S1|]. split; [exact S2|]. split; [intros p ty _ _ X; discriminate X|auto]. }
  set (s2 := KState (k_pib s1) (Tpm (t_handles (k_tpm s1)) (dset n_equals (t_keys (k_tpm s1)) k p)) (k_log s1)).
  match goal with |- context [bind (catch any_exn ?m ?h) ?f s1] => assert (E1 : catch any_exn m h s1 = (s2, Ok tt)) end.
  { unfold tpm_import, catch, bind, get. rewrite private_in, (proj2 (S3 k)), Ep, El. reflexivity. }
  rewrite (bind_ok _ _ _ _ _ _ _ _ E1). clear E1.
  assert (B2 : base s2). { apply base_tpm; [exact B1|apply B1|apply gd_set; [apply B1|exact Vk]|]. intros k' p' V' Eh. rewrite set_n by (try apply B1; assumption). pose proof (b_cache _ _ _ _ B1 k' p' V' Eh) as X. destruct (name_dec k k') as [<-|]; [|exact X]. pose proof (proj2 (S3 k)) as Y. unfold ChainSpec.private in Y, Ep. congruence. }
  assert (P2 : forall k', nval k' -> private s2 k' = if name_dec k k' then Some p else private s k'). { intros k' V'. unfold ChainSpec.private at 1. cbn [s2 k_tpm t_keys]. rewrite set_n by (try apply B1; assumption). destruct (name_dec k k'); [reflexivity|apply S3]. }
  destruct (find_ok P ktype h0 s2 k B2 Vk) as (s3 & E3 & B3 & Q3 & L3 & P3). rewrite (P2 k Vk) in E3. destruct (name_dec k k) as [_|]; [|congruence].
  rewrite (bind_ok _ _ _ (tpm_sign P psign rnd [1; 2; 3; 4] k DA_SHA256) _ s2 s3 (Some (psign rnd p [1; 2; 3; 4]))); [|unfold tpm_sign; rewrite (bind_ok _ _ _ _ _ _ _ _ E3); reflexivity].
  assert (H3 : Hist s3 = Hist s) by (rewrite L3; cbn [s2 k_log]; apply Q1). assert (Lv3 : lives_on s s3) by (split; intros x Lx; rewrite L3; cbn [s2 k_log]; apply Q1, Lx).
  assert (Pv3 : forall k', nval k' -> private s3 k' = if name_dec k k' then Some p else private s k') by (intros k' V'; rewrite (quiet_private P h0 _ _ k' Q3); apply P2, V').
  assert (Fail : exists s', bind (tpm_delete k) (fun _ => @raise kstate unit RuntimeError) s3 = (s', Err RuntimeError) /\ kept s s' /\ lives_on s s' /\ forall k', nval k' -> public s' k' = public s k' /\ private s' k' = private s k').
  { destruct (delete_ok P ktype h0 s3 k B3 Vk) as (s4 & E4 & B4 & L4 & P4 & D4). exists s4. split; [rewrite (bind_ok _ _ _ _ _ _ _ _ E4); reflexivity|].
    assert (Pv : forall k', nval k' -> private s4 k' = private s k') by (intros k' V'; rewrite D4, Pv3 by exact V'; destruct (name_dec k k') as [<-|]; [symmetry; exact Ep|reflexivity]).
    assert (Kb : forall k', key_bits (Hist s4) k' = key_bits (Hist s) k') by (intros k'; rewrite L4, H3; reflexivity).
    split; [apply kept_ext; auto|]. split; [split; intros x Lx; rewrite L4; apply Lv3, Lx|]. intros k' V'. split; [apply Kb|apply Pv, V']. }
  destruct Fail as (sf & Ef1 & Kf & Lf & Sf). destruct (ktype (x_content c)) as [ty|e] eqn:Et.
  2: { rewrite Ef1. do 2 eexists. split; [reflexivity|]. split; [exact Kf|]. split; [exact Lf|]. split; [intros p' ty _ _ _ X; discriminate X|intros _; exact Sf]. }
  destruct (pverify (x_content c) [1; 2; 3; 4] (psign rnd p [1; 2; 3; 4])) as [[|]|e] eqn:Ev.
  2,3: rewrite Ef1; do 2 eexists; (split; [reflexivity|]); (split; [exact Kf|]); (split; [exact Lf|]); (split; [intros p' ty' _ _ [= <-] _ X; rewrite Ev in X; discriminate X|intros _; exact Sf]).
  assert (Nok : owner k <> [] /\ exists kid, k = key_name (owner k) kid). { destruct Ak as (i & kid & Ni & E). rewrite E, owner_key. split; [exact Ni|eauto]. }
  destruct (m_addIdentity P ktype ord Ho h0 s3 (owner k) B3 (owner_val _ Vk)) as (s4 & hd & E4 & N4 & L4 & B4 & T4 & V4 & _ & Kb4 & Ct4 & _ & _ & _). rewrite (bind_ok _ _ _ _ _ _ _ _ (an_id_ok P _ _ _ _ E4)).
  destruct (m_addKey P ktype ord Ho h0 s4 hd (x_content c) k ty B4 L4 Vk) as (s5 & hk & E5 & N5 & L5 & B5 & T5 & V5 & H5 & _); [rewrite N4; exact Nok|rewrite Kb4, H3; exact Kn|exact Et|]. rewrite (bind_ok _ _ _ _ _ _ _ _ (an_key_ok P _ _ _ _ E5)).
  assert (Kb5 : forall k', key_bits (Hist s5) k' = if name_dec k k' then Some (x_content c) else key_bits (Hist s) k') by (intros k'; rewrite H5; cbn [PibSpec.key_bits]; rewrite Kb4, H3; reflexivity).
  destruct (m_addCert P ktype ord Ho h0 s5 hk c B5 L5 Vc) as (s6 & E6 & B6 & T6 & V6 & H6 & _).
  { rewrite N5. reflexivity. } { exact Ac. } { exact Ef. } { rewrite N5, Kb5. destruct (name_dec k k); [reflexivity|congruence]. }
  { intros x Ex. rewrite H5 in Ex. cbn [PibSpec.cert] in Ex. rewrite Ct4, H3 in Ex. rewrite (proj2 (no_key_no_cert P ktype h0 s k B Kn)) in Ex by reflexivity. discriminate Ex. }
  assert (Kb6 : forall k', key_bits (Hist s6) k' = if name_dec k k' then Some (x_content c) else key_bits (Hist s) k'). { intros k'. rewrite H6, addCert_bits; [apply Kb5|]. fold k. rewrite Kb5. destruct (name_dec k k); [reflexivity|congruence]. }
  assert (Pv6 : forall k', nval k' -> private s6 k' = if name_dec k k' then Some p else private s k') by (intros k' V'; unfold ChainSpec.private at 1; rewrite T6, T5, T4; apply Pv3, V').
  exists s6, (Ok tt). split; [apply an_none_ok, E6|]. split; [split; [exact B6|split]|split; [|split]].
  - intros k' b Eb. unfold ChainSpec.public, pib_hist in Eb. destruct (key_there P ktype h0 s6 k' b B6 Eb) as (_ & V' & _). rewrite Kb6 in Eb. rewrite Pv6 by exact V'. destruct (name_dec k k'); [injection Eb as <-; exists p; split; [reflexivity|exact (Htest _ _ _ Ev)]|apply Co, Eb].
  - intros _ Or k' p' V' Ep'. rewrite Pv6 in Ep' by exact V'. unfold ChainSpec.public, pib_hist. rewrite Kb6. destruct (name_dec k k'); [discriminate|exact (Or k' p' V' Ep')].
  - apply (lives_trans P _ _ _ Lv3), (lives_trans P _ _ _ V4), (lives_trans P _ _ _ V5), V6.
  - intros p' ty' _ _ [= <-] _ _. split; [reflexivity|]. unfold ChainSpec.public, pib_hist. rewrite Kb6, Pv6 by exact Vk. destruct (name_dec k k); [|congruence]. split; [reflexivity|]. split; [reflexivity|]. rewrite H6. cbn. unfold x_name. destruct (name_dec _ _); [reflexivity|congruence].
  - intros [e X]. discriminate X.
Qed.

(** ** Every call *)
Notation kexec := (kexec P derive psign pverify ktype sha load ord).
Theorem kkeeps : forall o s, base s -> coherent s -> kproper P derive ktype sha h0 s o -> exists s' r, kexec o s = (s', r) /\ kept s s'.
Proof.
  intros o s B Co Pr. assert (G : forall A (f : A -> kanswer) (m : km A), keeps_k s m -> exists s' r, kout P f m s = (s', r) /\ kept s s') by (intros A f m K; exact (keeps_out P psign pverify ktype h0 A kanswer f s m K)).
  destruct o; cbn [ChainModel.kexec]; cbn [kproper] in Pr; apply G; clear G.
  - destruct Pr as [R Pr]. apply keeps_pcall; auto. destruct o; try contradiction; exact Logic.I.
  - destruct Pr as [Vi Pp]. destruct (createIdentity_ok s i kp gen rs now rnd B Co Vi Pp) as (s' & r & E & K & _). exists s', r. auto.
  - destruct (deleteIdentity_ok P psign pverify ktype ord Ho h0 s h B Co Pr) as (s' & E & K & _). do 2 eexists. split; [exact E|exact K].
  - unfold deleteIdentityName. apply keeps_catch.
    + destruct (r_identity P ktype ord Ho h0 s i B Pr) as (s1 & B1 & Q1 & A1). assert (K1 : kept s s1) by (apply kept_quiet; assumption). destruct (ident (Hist s) i).
      * destruct A1 as (hd & E1 & N1 & L1). eapply keeps_bind; [apply an_id_ok, E1|exact K1|]. destruct (deleteIdentity_ok P psign pverify ktype ord Ho h0 s1 hd B1 (proj1 (proj2 K1)) L1) as (s' & E & K & _). do 2 eexists. split; [exact E|exact K].
      * eapply keeps_err; [apply an_id_err, A1|exact K1].
    + intros s' (B' & Co' & _). apply keeps_ret; assumption.
  - destruct (live_id_val P ktype h0 s h B Pr) as [Vi _]. unfold setDefaultIdentity_k. apply keeps_then; [apply keeps_id, keeps_pcall; auto; exact Logic.I|]. intros s' a (B' & Co' & _) _. apply keeps_ret; assumption.
  - destruct Pr as [L Pp]. destruct (createKey_ok P derive psign pverify ktype sha ord Ho Hkt Hder Hver Hsha h0 s h kp gen rs now rnd B Co L Pp) as (s' & r & E & B' & Co' & _ & O' & _). exists s', r. split; [exact E|]. split; [exact B'|]. split; [exact Co'|auto].
  - destruct Pr as [L Lk]. destruct (deleteKey_ok P psign pverify ktype ord Ho h0 s h hk B Co L Lk) as (s' & r & E & K & _). do 2 eexists. split; [exact E|exact K].
  - destruct Pr as [L Lk]. destruct (same_identity_ok P ktype h0 s h hk B L Lk) as (E & V & Ak). unfold setDefaultKey_k. eapply keeps_bind; [exact E|apply kept_quiet; auto; apply quiet_refl|]. destruct (name_dec (h_name h) (owner (h_name hk))); cbn [negb]; [|apply keeps_raise; assumption].
    apply keeps_then; [apply keeps_key, keeps_pcall; auto; [exact Logic.I|split; assumption]|]. intros s' a (B' & Co' & _) _. apply keeps_ret; assumption.
  - destruct Pr as [L Cp]. destruct (addCertificate_ok P psign pverify ktype ord Ho h0 s hk c B Co L Cp) as (s' & r & E & K & _). do 2 eexists. split; [exact E|exact K].
  - destruct Pr as [L Vn]. unfold deleteCertificate_k. apply keeps_then; [apply keeps_lift; assumption|]. intros s' a (B' & Co' & _) X. injection X as <- _. destruct (negb a); [apply keeps_raise; assumption|]. apply keeps_none, keeps_pcall; auto; [exact Logic.I|split; assumption].
  - destruct Pr as [L Cp]. destruct (addCertificate_ok P psign pverify ktype ord Ho h0 s hk c B Co L Cp) as (s' & r & E & K & L' & _). unfold setDefaultCertificate_k. destruct r as [[]|e]; [|eapply keeps_err; eassumption]. eapply keeps_bind; [exact E|exact K|]. destruct K as (B' & Co' & _).
    apply keeps_then; [apply keeps_cert, keeps_pcall; auto; [exact Logic.I|split; [exact L'|apply Cp]]|]. intros s2 a (B2 & Co2 & _) _. apply keeps_ret; assumption.
  - destruct Pr as (L & Hn & Nc). destruct (selfSign_ok P psign pverify ktype sha ord Ho Hkt h0 s hk now rnd B L Hn) as (s' & r & bits & E & B' & V' & T & Kb & Cs & _); [apply Nc, fromVersion_ok, Hn|]. exists s', r. split; [exact E|]. destruct Cs as [(e & _ & Q)|(sg & _ & H & _)]; [apply kept_quiet; assumption|].
    apply kept_same; auto. intros k. rewrite H. apply addCert_bits. cbn [d_name with_sig self_data]. unfold self_name. rewrite owner_app2. exact Kb.
  - destruct Pr as [Vc Nr]. destruct (import_ok s c bag pw rnd B Co Vc Nr) as (s' & r & E & K & _). exists s', r. auto.
  - destruct (sign_data_quiet s si rnd d B Pr) as (s' & r & E & B' & Q). exists s', r. split; [exact E|apply kept_quiet; assumption].
  - destruct (sign_interest_quiet s si rnd rn i B Pr) as (s' & r & E & B' & Q). exists s', r. split; [exact E|apply kept_quiet; assumption].
  - destruct (sign_buffer_quiet s si rnd m B Pr) as (s' & r & E & B' & Q). exists s', r. split; [exact E|apply kept_quiet; assumption].
Qed.
End K.
