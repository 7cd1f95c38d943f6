(** * KeyChain: creating keys and certificates *)
From Verif Require Import Base BaseLemmas TlvSpec NameModel NameSpec NameProofs DictModel DictProofs WireModel WireSpec SegPubProps CertProofs HierModel HierSpec HierProps PibModel PibSpec PibProps FrontModel FrontSpec FrontProofs FrontProofs5 FrontProps ChainModel ChainSpec ChainProofs ChainProofs2 ChainProofs3.
From Coq Require Import Permutation.

Section K.
Variable P : Type.
Variable derive : P -> bytes.
Variable psign : Z -> P -> bytes -> bytes.
Variable pverify : bytes -> bytes -> bytes -> res bool.
Variable ktype : bytes -> res Z.
Variable sha : bytes -> bytes.
Variable ord : list name -> list name.
Hypothesis Ho : forall l, Permutation l (ord l).
Hypothesis Hkt : forall b t, ktype b = Ok t -> b <> [] /\ (t = KT_RSA \/ t = KT_EC).
Hypothesis Hder : forall p, exists t, ktype (derive p) = Ok t.
Hypothesis Hver : forall p, belongs P psign pverify (derive p) p.
Hypothesis Hsha : forall m, bytes_ok (sha m).
Variable h0 : list (call data).
Notation call := (call data).
Notation trace := (trace data).
Notation kstate := (kstate P).
Notation km := (sm kstate).
Notation hist := (hist x_name).
Notation ident := (ident x_name).
Notation def_id := (def_id x_name).
Notation key_bits := (key_bits x_name x_content).
Notation cert := (cert x_name).
Notation def_key := (def_key x_name x_content).
Notation def_cert := (def_cert x_name).
Notation pcall := (pcall P ktype ord).
Notation nget := (dget n_equals).
Notation Hist s := (hist h0 (k_log s)).
Notation dkey s i := (default_key h0 (k_log s) i).
Notation base := (base P ktype h0).
Notation quiet := (quiet P h0).
Notation coherent := (coherent P psign pverify h0).
Notation no_orphans := (no_orphans P h0).
Notation private := (private P).
Notation public := (public P h0).
Notation sign_data := (sign_data P psign ktype sha ord).
Notation signature_by := (signature_by P psign pverify ktype sha h0).
Notation selfSign := (selfSign P psign ktype sha ord).
Notation createKey := (createKey P derive psign ktype sha ord).
Notation createIdentity := (createIdentity P derive psign ktype sha ord).
Notation tpm_create := (tpm_create P derive sha).
Lemma Hkt' : forall b t, ktype b = Ok t -> t = KT_RSA \/ t = KT_EC. Proof. intros b t E. apply (Hkt b t E). Qed.

Definition lives_on (s s' : kstate) : Prop := (forall hd, live_id (k_log s) hd -> live_id (k_log s') hd) /\ (forall hd, live_key (k_log s) hd -> live_key (k_log s') hd).
Lemma lives_trans : forall a b c, lives_on a b -> lives_on b c -> lives_on a c. Proof. intros a b c [A1 A2] [B1 B2]. split; auto. Qed.
Lemma quiet_lives : forall s s', quiet s s' -> lives_on s s'. Proof. intros s s' (_ & _ & _ & A & B). split; auto. Qed.
Lemma quiet_coh : forall s s', quiet s s' -> coherent s -> coherent s'.
Proof. intros s s' Q Co k b E. unfold ChainSpec.public, pib_hist in E. rewrite (quiet_hist P h0 _ _ Q) in E. rewrite (quiet_private P h0 _ _ k Q). apply Co, E. Qed.
Lemma quiet_orph : forall s s', quiet s s' -> no_orphans s -> no_orphans s'.
Proof. intros s s' Q Co k p V E. rewrite (quiet_private P h0 _ _ k Q) in E. unfold ChainSpec.public, pib_hist. rewrite (quiet_hist P h0 _ _ Q). apply (Co k p V E). Qed.

Lemma m_addIdentity : forall s i, base s -> Forall c_valid i -> exists s' hd, pcall (FAddIdentity i) s = (s', Ok (AId hd)) /\ h_name hd = i /\ live_id (k_log s') hd /\ base s' /\ k_tpm s' = k_tpm s /\
  lives_on s s' /\ ident (Hist s') i = true /\ (forall k, key_bits (Hist s') k = key_bits (Hist s) k) /\ (forall n, cert (Hist s') n = cert (Hist s) n) /\ (forall k, def_cert (Hist s') k = def_cert (Hist s) k) /\ (forall j, dkey s' j = dkey s j) /\
  (Hist s' = if ident (Hist s) i then Hist s else AddIdentity i :: Hist s).
Proof.
  intros s i B V. destruct (pcall_step P ktype ord Ho h0 s (FAddIdentity i) B V) as (s' & r & E & B' & (hd & -> & N) & L & T). exists s', hd. split; [exact E|]. split; [exact N|]. rewrite L.
  split; [cbn; auto|]. split; [exact B'|]. split; [exact T|]. split; [split; intros x Lx; rewrite L; cbn; auto|]. cbn [FrontSpec.hist]. destruct (PibSpec.ident x_name (Hist s) i) eqn:Ei.
  - split; [exact Ei|]. repeat split; auto. intros j. unfold default_key. cbn [FrontSpec.hist chosen]. rewrite Ei. reflexivity.
  - split; [cbn; destruct (name_dec i i); congruence|]. repeat split; auto. intros j. unfold default_key. cbn [FrontSpec.hist chosen]. rewrite Ei. reflexivity.
Qed.
Lemma m_addKey : forall s hd b k ty, base s -> live_id (k_log s) hd -> Forall c_valid k -> key_of (h_name hd) k -> key_bits (Hist s) k = None -> ktype b = Ok ty ->
  exists s' x, pcall (FAddKey hd b k) s = (s', Ok (AKey x)) /\ h_name x = k /\ live_key (k_log s') x /\ base s' /\ k_tpm s' = k_tpm s /\ lives_on s s' /\ Hist s' = AddKey (h_name hd) k b :: Hist s /\ (forall i, chosen (k_log s') i = chosen (k_log s) i).
Proof.
  intros s hd b k ty B L V K Nb Ht. destruct (pcall_step P ktype ord Ho h0 s (FAddKey hd b k) B) as (s' & r & E & B' & A & Lg & T); [split; [exact L|]; split; [exact V|]; intros _; split; [exact Nb|eauto]|].
  destruct A as [A _]. destruct (A K) as (x & -> & N). exists s', x. split; [exact E|]. split; [exact N|]. unfold lives_on. rewrite Lg. split; [cbn; auto|]. split; [exact B'|]. split; [exact T|]. split; [split; intros y Ly; cbn; auto|]. split; reflexivity.
Qed.
Lemma m_addCert : forall s hk c, base s -> live_key (k_log s) hk -> Forall c_valid (d_name c) -> owner (d_name c) = h_name hk -> a_cert (d_name c) -> cert_checkFormat c = Ok tt -> key_bits (Hist s) (h_name hk) = Some (x_content c) ->
  (forall x, cert (Hist s) (d_name c) = Some x -> x = c) ->
  exists s', pcall (FAddCert hk c) s = (s', Ok ANone) /\ base s' /\ k_tpm s' = k_tpm s /\ lives_on s s' /\ Hist s' = AddCert c :: Hist s /\ (forall i, chosen (k_log s') i = chosen (k_log s) i).
Proof.
  intros s hk c B L V O A Ck Kb Nc. destruct (pcall_step P ktype ord Ho h0 s (FAddCert hk c) B) as (s' & r & E & B' & X & Lg & T); [repeat split; auto|].
  destruct X as [X _]. specialize (X O). subst r. exists s'. split; [exact E|]. split; [exact B'|]. split; [exact T|]. unfold lives_on. rewrite Lg. split; [split; intros y Ly; cbn; auto|]. split; reflexivity.
Qed.
(** A certificate of a key with its bits does not change the keys. *)
Lemma addCert_bits : forall h c, key_bits h (owner (d_name c)) = Some (x_content c) -> forall k, key_bits (AddCert c :: h) k = key_bits h k.
Proof. intros h c E k. cbn. unfold x_name. destruct (name_dec _ _) as [<-|]; [symmetry; exact E|reflexivity]. Qed.

(** ** selfSign *)
Lemma self_valid : forall k now, 0 <= now -> Forall c_valid k -> Forall c_valid (self_name k now).
Proof. intros k now Hn V. apply Forall_app. split; [exact V|]. constructor; [apply generic_valid; repeat constructor; unfold is_byte; lia|]. constructor; [|constructor]. apply generic_valid. constructor; [unfold is_byte; lia|apply TlvDecProofs.nonneg_ok; exact Hn]. Qed.
Lemma self_cert : forall k now, a_key k -> a_cert (self_name k now) /\ owner (self_name k now) = k.
Proof. intros k now (i & kid & Ni & ->). split; [|apply owner_app2]. exists i, kid, self_comp, (c_generic (253 :: nonneg now)). split; [exact Ni|]. rewrite cert_key. reflexivity. Qed.
Lemma self_check : forall k now bits sg, Forall c_valid k -> 0 <= now -> a_key k -> bits <> [] -> cert_checkFormat (with_sig (self_data k now bits) sg) = Ok tt.
Proof.
  intros k now bits sg V Hn A Nb. destruct (self_cert k now A) as [(i & kid & iss & v & Ni & E) _]. unfold cert_checkFormat. cbn [d_name d_meta with_sig self_data d_content mi_type mi_freshness].
  destruct (C53_certificate_name _ (self_valid k now Hn V)) as (b & Eb & Hb). rewrite Eb. cbn [rbind]. assert (b = true) by (apply Hb; exists i, kid, iss, v; exact E). subst b. cbn. destruct bits; [congruence|]. replace (zlen (z :: bits) =? 0) with false; [reflexivity|]. rewrite zlen_cons. pose proof (zlen_nonneg _ bits). lia.
Qed.
Lemma self_proper : forall t hk now, live_key t hk -> Forall c_valid (h_name hk) -> si_proper t (self_info hk now) /\ signer h0 t (self_info hk now) (WithKey (h_name hk)).
Proof.
  intros t hk now L V. split.
  - split; [cbn; unfold SI_KEY; lia|]. split; [exact V|]. split; [reflexivity|]. split; [intros hd E; discriminate E|]. split; [intros hd [= <-]; exact L|discriminate].
  - repeat split; try discriminate.
Qed.
Lemma self_signable : forall hk now, in_time now -> name_ok (h_name hk) -> signable (self_info hk now) (WithKey (h_name hk)).
Proof.
  intros hk now R N. split; [|intros k [= <-]; exact N]. unfold period_of, self_info. cbn [si_validity si_setValidity]. unfold in_time in R.
  assert (U : ceil1000 now < now + 1000 /\ now <= ceil1000 now). { unfold ceil1000. pose proof (Z.div_mod (- now) 1000 ltac:(lia)). pose proof (Z.mod_pos_bound (- now) 1000 ltac:(lia)). lia. }
  assert (D : forall x, x - 1000 < floor1000 x <= x). { intros x. unfold floor1000. pose proof (Z.div_mod x 1000 ltac:(lia)). pose proof (Z.mod_pos_bound x 1000 ltac:(lia)). lia. }
  assert (Q : forall x, ceil1000 (ceil1000 x) = ceil1000 x). { intros x. unfold ceil1000. rewrite <- Z.mul_opp_l, Z.div_mul by lia. lia. }
  assert (Q2 : forall x, floor1000 (floor1000 x) = floor1000 x). { intros x. unfold floor1000. rewrite Z.div_mul by lia. reflexivity. }
  specialize (D (now + YEARS_20)). unfold YEARS_20 in *.
  destruct (vp_hasPeriod _) eqn:E; [|left; reflexivity]. right. unfold vp_setPeriod. cbn [vp_notBefore vp_notAfter]. rewrite Q, Q2. split.
  - exists (- (- now / 1000)). split; [unfold ceil1000; lia|]. unfold ceil1000 in U. lia.
  - exists ((now + 20 * 365 * 24 * 3600 * 1000) / 1000). split; [unfold floor1000; lia|]. unfold floor1000 in D. lia.
Qed.
Lemma nonneg_comp : forall now, 0 <= now -> comp_ok (c_generic (253 :: nonneg now)).
Proof. intros now H. apply generic_ok. constructor; [unfold is_byte; lia|apply TlvDecProofs.nonneg_ok; exact H]. Qed.

Lemma selfSign_ok : forall s hk now rnd, base s -> live_key (k_log s) hk -> 0 <= now -> cert (Hist s) (self_name (h_name hk) now) = None ->
  exists s' r bits, selfSign hk now rnd s = (s', r) /\ base s' /\ lives_on s s' /\ t_keys (k_tpm s') = t_keys (k_tpm s) /\ key_bits (Hist s) (h_name hk) = Some bits /\
    ((exists e, r = Err e /\ quiet s s') \/
     (exists sg, let c := with_sig (self_data (h_name hk) now bits) sg in r = Ok c /\ Hist s' = AddCert c :: Hist s /\ (forall i, dkey s' i = match dkey s i with Some k => Some k | None => if name_dec (owner (h_name hk)) i then Some (h_name hk) else None end) /\ cert_checkFormat c = Ok tt)) /\
    (coherent s -> in_time now -> name_ok (h_name hk) ->
       exists sg b, r = Ok (with_sig (self_data (h_name hk) now bits) (sg (Some b))) /\ signature_by s (self_info hk now) (WithKey (h_name hk)) rnd (data_signed (with_sig (self_data (h_name hk) now bits) (sg (Some b)))) sg b).
Proof.
  intros s hk now rnd B L Hn Nc. destruct (live_key_val P ktype h0 s hk B L) as (ko & V & Ak & _ & _ & Kb & _ & Kt). unfold ChainModel.selfSign. rewrite fromVersion_ok by exact Hn. rewrite (bind_ok _ _ _ (lift (Ok (c_generic (253 :: nonneg now)))) _ s s _ eq_refl).
  destruct (r_public P ktype ord Ho h0 s hk B L) as (s1 & bits & B1 & Q1 & E1 & Eb). rewrite (bind_ok _ _ _ _ _ _ _ _ (an_bits_ok P _ _ _ _ E1)). cbv zeta. rewrite Kb in Eb. injection Eb as <-. set (bits := ko_bits ko) in *.
  fold (self_name (h_name hk) now). fold (self_data (h_name hk) now bits). fold (self_info hk now). assert (L1 := proj2 (quiet_lives _ _ Q1) hk L).
  destruct (self_proper (k_log s1) hk now L1 V) as [Ps W]. destruct (sign_data_frame P psign ktype sha ord Ho Hkt' h0 s1 _ _ rnd (self_data (h_name hk) now bits) B1 Ps W) as (s2 & r & E2 & B2 & Q2 & F). pose proof (quiet_trans P h0 _ _ _ Q1 Q2) as Q.
  assert (Full : coherent s -> in_time now -> name_ok (h_name hk) -> exists sg b, r = Ok (with_sig (self_data (h_name hk) now bits) (sg (Some b))) /\ signature_by s (self_info hk now) (WithKey (h_name hk)) rnd (data_signed (with_sig (self_data (h_name hk) now bits) (sg (Some b)))) sg b).
  { intros Co Ti Nm. destruct (self_proper (k_log s) hk now L V) as [Ps0 W0].
    assert (Nm' : name_ok (self_name (h_name hk) now)). { apply Forall_app. split; [exact Nm|]. constructor; [apply generic_ok; repeat constructor; unfold is_byte; lia|]. constructor; [apply nonneg_comp; exact Hn|constructor]. }
    assert (Mi : mi_ok (d_meta (self_data (h_name hk) now bits))). { split; [left; cbn; lia|]. split; [cbn; lia|]. apply generic_ok. constructor. }
    destruct (sign_data_ok P psign pverify ktype sha ord Ho Hkt' h0 s1 _ _ rnd (self_data (h_name hk) now bits) B1 (quiet_coh _ _ Q1 Co) Ps W (self_signable hk now Ti Nm) Nm' Mi) as (s2' & r' & E2' & _ & _ & sg & b & -> & G). rewrite E2 in E2'. injection E2' as <- ->. exists sg, b. split; [reflexivity|].
    destruct G as (b0 & ty & p & G1 & G2 & G3 & G4). exists b0, ty, p. unfold ChainSpec.public, pib_hist in *. rewrite (quiet_hist P h0 _ _ Q1) in G1. rewrite (quiet_private P h0 _ _ _ Q1) in G3. auto. }
  destruct r as [c|e]; [|exists s2, (Err e), bits; rewrite (bind_err _ _ _ _ _ _ _ _ E2); split; [reflexivity|]; split; [exact B2|]; split; [apply quiet_lives, Q|]; split; [apply Q|]; split; [exact Kb|]; split; [left; exists e; auto|]; intros Co Ti Nm; destruct (Full Co Ti Nm) as (? & ? & X & _); discriminate X].
  rewrite (bind_ok _ _ _ _ _ _ _ _ E2). destruct (F c eq_refl) as (sg & Ec). assert (Nn : d_name c = self_name (h_name hk) now) by (rewrite Ec; reflexivity). destruct (self_cert (h_name hk) now Ak) as [Ac Oc].
  assert (Ck : cert_checkFormat c = Ok tt). { rewrite Ec. apply self_check; auto. apply (Hkt _ _ Kt). }
  destruct (m_addCert s2 hk c B2) as (s3 & E3 & B3 & T3 & L3 & H3 & C3).
  - apply (quiet_lives _ _ Q), L. - rewrite Nn. apply self_valid; assumption. - rewrite Nn. exact Oc. - rewrite Nn. exact Ac. - exact Ck.
  - rewrite (quiet_hist P h0 _ _ Q), Kb, Ec. reflexivity.
  - rewrite Nn, (quiet_hist P h0 _ _ Q), Nc. discriminate.
  - unfold bind at 1. rewrite (catch_ok _ _ _ _ _ _ _ _ (an_none_ok P _ _ _ E3)). exists s3, (Ok c), bits. split; [reflexivity|]. split; [exact B3|]. split; [exact (lives_trans _ _ _ (quiet_lives _ _ Q) L3)|]. split; [rewrite T3; apply Q|]. split; [exact Kb|]. split; [|exact Full]. right. exists sg. cbv zeta. rewrite <- Ec. split; [reflexivity|]. split; [rewrite H3, (quiet_hist P h0 _ _ Q); reflexivity|]. split; [|exact Ck].
    intros i. assert (D : dkey s2 i = dkey s i) by apply Q. rewrite <- D. unfold default_key. rewrite C3, H3. destruct (chosen (k_log s2) i); [reflexivity|]. cbn [PibSpec.def_key]. change (d_name c) with (x_name c) in Nn. rewrite Nn, Oc. destruct (PibSpec.def_key x_name x_content (Hist s2) i); reflexivity.
Qed.
End K.
