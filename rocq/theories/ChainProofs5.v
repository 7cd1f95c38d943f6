(** * KeyChain: the TPM, and creating keys *)
From Verif Require Import Base BaseLemmas TlvSpec NameModel NameSpec NameProofs DictModel DictProofs WireModel WireSpec SegPubProps CertProofs HierModel HierSpec HierProps PibModel PibSpec PibProps FrontModel FrontSpec FrontProofs FrontProofs5 FrontProps ChainModel ChainSpec ChainProofs ChainProofs2 ChainProofs3 ChainProofs4.
From Coq Require Import Permutation.

Section K.
Variable P : Type.
Variable derive : P -> bytes.
Variable psign : Z -> P -> bytes -> bytes.
Variable pverify : bytes -> bytes -> bytes -> res bool.
Variable ktype : bytes -> res Z.
Variable sha : bytes -> bytes.
Variable ord : list name -> list name.
Hypothesis Ho : forall l, Permutation l (ord l).
Hypothesis Hkt : forall b t, ktype b = Ok t -> b <> [] /\ (t = KT_RSA \/ t = KT_EC).
Hypothesis Hder : forall p, exists t, ktype (derive p) = Ok t.
Hypothesis Hver : forall p, belongs P psign pverify (derive p) p.
Hypothesis Hsha : forall m, bytes_ok (sha m).
Variable h0 : list (call data).
Notation call := (call data).
Notation trace := (trace data).
Notation kstate := (kstate P).
Notation km := (sm kstate).
Notation hist := (hist x_name).
Notation ident := (ident x_name).
Notation def_id := (def_id x_name).
Notation key_bits := (key_bits x_name x_content).
Notation cert := (cert x_name).
Notation def_key := (def_key x_name x_content).
Notation def_cert := (def_cert x_name).
Notation pcall := (pcall P ktype ord).
Notation nget := (dget n_equals).
Notation Hist s := (hist h0 (k_log s)).
Notation dkey s i := (default_key h0 (k_log s) i).
Notation base := (base P ktype h0).
Notation quiet := (quiet P h0).
Notation coherent := (coherent P psign pverify h0).
Notation no_orphans := (no_orphans P h0).
Notation private := (private P).
Notation public := (public P h0).
Notation sign_data := (sign_data P psign ktype sha ord).
Notation signature_by := (signature_by P psign pverify ktype sha h0).
Notation selfSign := (selfSign P psign ktype sha ord).
Notation createKey := (createKey P derive psign ktype sha ord).
Notation createIdentity := (createIdentity P derive psign ktype sha ord).
Notation tpm_create := (tpm_create P derive sha).
Notation tpm_delete := (tpm_delete P).
Notation tpm_deletes := (tpm_deletes P).
Notation new_id := (new_id P derive sha).
Notation lives_on := (lives_on P).
Notation params_proper := (params_proper P derive sha).

Lemma base_tpm : forall s hs ks, base s -> gd hs -> gd ks -> (forall k p, nval k -> nget hs k = Some p -> nget ks k = Some p) -> base (KState (k_pib s) (Tpm hs ks) (k_log s)).
Proof. intros s hs ks [B1 B2 B3 B4 B5 B6 B7] Gh Gk C. constructor; auto. Qed.
Lemma key_name_val : forall i c, nval i -> c_valid c -> nval (key_name i c).
Proof. intros i c Vi Vc. unfold key_name. apply Forall_app. split; [exact Vi|]. constructor; [|constructor; [exact Vc|constructor]]. apply generic_valid. apply bytes_okb_ok. vm_compute. reflexivity. Qed.
Lemma private_in : forall s k, din n_equals (t_keys (k_tpm s)) k = match private s k with Some _ => true | None => false end.
Proof. intros. rewrite din_get. reflexivity. Qed.
Lemma construct_eq : forall i c, key_construct i c = key_name i c. Proof. intros. apply C53_key_construct. Qed.
Lemma fresh_id_ok : forall s i rs, match fresh_id P (t_keys (k_tpm s)) i rs with
  | Ok c => exists rs1 r rs2, rs = rs1 ++ r :: rs2 /\ c = c_generic r /\ private s (key_name i c) = None /\ Forall (fun x => private s (key_name i (c_generic x)) <> None) rs1
  | Err _ => Forall (fun x => private s (key_name i (c_generic x)) <> None) rs end.
Proof.
  intros s i. induction rs as [|r rs IH]; cbn [fresh_id]; [constructor|]. rewrite private_in, construct_eq. destruct (private s (key_name i (c_generic r))) as [p|] eqn:E.
  - assert (Np : private s (key_name i (c_generic r)) <> None) by congruence. destruct (fresh_id P (t_keys (k_tpm s)) i rs) as [c|e].
    + destruct IH as (rs1 & r' & rs2 & -> & E2 & E3 & F). exists (r :: rs1), r', rs2. split; [reflexivity|]. split; [exact E2|]. split; [exact E3|]. constructor; assumption.
    + constructor; assumption.
  - exists [], r, rs. split; [reflexivity|]. split; [reflexivity|]. split; [exact E|constructor].
Qed.
Lemma first_unused : forall (Q : bytes -> Prop) a1 r1 b1 a2 r2 b2, a1 ++ r1 :: b1 = a2 ++ r2 :: b2 -> Forall (fun x => ~ Q x) a1 -> Forall (fun x => ~ Q x) a2 -> Q r1 -> Q r2 -> r1 = r2.
Proof.
  intros Q. induction a1 as [|x a1 IH]; intros r1 b1 [|y a2] r2 b2 E F1 F2 Q1 Q2; cbn in E; injection E as E1 E2; subst; auto.
  - inversion F2; subst. contradiction. - inversion F1; subst. contradiction. - inversion F1; inversion F2; subst. eauto.
Qed.
Lemma tpm_create_ok : forall s i kp gen rs now, base s -> nval i -> params_proper s i kp gen rs now ->
  exists s' r, tpm_create i kp gen rs s = (s', r) /\
   ((exists e, r = Err e /\ s' = s /\ forall c, ~ new_id s i kp gen rs c) \/
    (exists c, c_valid c /\ new_id s i kp gen rs c /\ r = Ok (key_name i c) /\ base s' /\ k_log s' = k_log s /\ k_pib s' = k_pib s /\
       (forall k, nval k -> private s' k = if name_dec (key_name i c) k then Some gen else private s k) /\ (forall c', new_id s i kp gen rs c' -> c' = c))).
Proof.
  intros s i kp gen rs now B Vi (Ni & Vc & Vr & _ & Hs). unfold ChainModel.tpm_create. destruct ((kp_type kp =? KT_RSA) || (kp_type kp =? KT_EC)) eqn:Et.
  2: { do 2 eexists. split; [reflexivity|]. left. eexists. split; [reflexivity|]. split; [reflexivity|]. intros c ([T|T] & _); rewrite T in Et; discriminate Et. }
  assert (Ht : kp_type kp = KT_RSA \/ kp_type kp = KT_EC) by (unfold KT_RSA, KT_EC in *; lia).
  rewrite (bind_ok _ _ _ (get k_tpm) _ s s (k_tpm s) eq_refl).
  assert (Fin : forall c, c_valid c -> new_id s i kp gen rs c -> (forall c', new_id s i kp gen rs c' -> c' = c) ->
    exists s' r, bind (lift (Ok c)) (fun c => let k := key_construct i c in bind (w_tpm P (Tpm (dset n_equals (t_handles (k_tpm s)) k gen) (dset n_equals (t_keys (k_tpm s)) k gen))) (fun _ => ret k)) s = (s', r) /\
     ((exists e, r = Err e /\ s' = s /\ forall c, ~ new_id s i kp gen rs c) \/ (exists c, c_valid c /\ new_id s i kp gen rs c /\ r = Ok (key_name i c) /\ base s' /\ k_log s' = k_log s /\ k_pib s' = k_pib s /\
       (forall k, nval k -> private s' k = if name_dec (key_name i c) k then Some gen else private s k) /\ (forall c', new_id s i kp gen rs c' -> c' = c)))).
  { intros c Vcc Nw Un. rewrite (bind_ok _ _ _ (lift (Ok c)) _ s s c eq_refl). cbv zeta. rewrite construct_eq. do 2 eexists. split; [reflexivity|]. right. exists c. split; [exact Vcc|]. split; [exact Nw|]. split; [reflexivity|].
    pose proof (key_name_val i c Vi Vcc) as Vk. split; [|split; [reflexivity|]; split; [reflexivity|]; split; [|exact Un]].
    - apply base_tpm; [exact B|apply gd_set; [apply B|exact Vk]|apply gd_set; [apply B|exact Vk]|]. intros k p V. rewrite !set_n by (try apply B; assumption). destruct (name_dec _ _); [auto|apply (b_cache _ _ _ _ B); exact V].
    - intros k V. unfold ChainSpec.private. cbn [k_tpm t_keys]. rewrite set_n by (try apply B; assumption). reflexivity. }
  destruct (kp_idType kp =? KI_USER) eqn:E1; [|destruct (kp_idType kp =? KI_SHA256) eqn:E2; [|destruct (kp_idType kp =? KI_RANDOM) eqn:E3]].
  - rewrite private_in, construct_eq. destruct (private s (key_name i (kp_id kp))) eqn:Ep.
    + do 2 eexists. split; [reflexivity|]. left. eexists. split; [reflexivity|]. split; [reflexivity|]. intros c (_ & N & [[_ ->]|[[T _]|[T _]]]); [congruence|rewrite T in E1; discriminate E1|rewrite T in E1; discriminate E1].
    + apply Fin; [exact Vc| |].
      * split; [exact Ht|]. split; [exact Ep|]. left. split; [apply Z.eqb_eq, E1|reflexivity].
      * intros c (_ & N & [[_ ->]|[[T _]|[T _]]]); [reflexivity|rewrite T in E1; discriminate E1|rewrite T in E1; discriminate E1].
  - apply Fin; [apply generic_valid, Hsha| |].
    + split; [exact Ht|]. split; [apply Hs, Z.eqb_eq, E2|]. right. left. split; [apply Z.eqb_eq, E2|reflexivity].
    + intros c (_ & N & [[T _]|[[_ ->]|[T _]]]); [rewrite T in E1; discriminate E1|reflexivity|rewrite T in E2; discriminate E2].
  - pose proof (fresh_id_ok s i rs) as F. destruct (fresh_id P (t_keys (k_tpm s)) i rs) as [c|e] eqn:Ef; cbn [rbind].
    + destruct F as (rs1 & r & rs2 & Er & Ec & Np & F). assert (Uq : forall c', new_id s i kp gen rs c' -> c' = c).
      { intros c' (_ & N & [[T _]|[[T _]|(_ & q1 & q & q2 & Eq & Ec' & Nq & Fq)]]); [rewrite T in E1; discriminate E1|rewrite T in E2; discriminate E2|]. subst c c'. f_equal. rewrite Eq in Er. symmetry.
        apply (first_unused (fun x => private s (key_name i (c_generic x)) = None) _ _ _ _ _ _ (eq_sym Er) F Fq Np N). }
      destruct (zlen (c_value c) =? 0) eqn:Ez.
      * do 2 eexists. split; [reflexivity|]. left. eexists. split; [reflexivity|]. split; [reflexivity|]. intros c' Nw. pose proof (Uq _ Nw) as ->. destruct Nw as (_ & N & [[T _]|[[T _]|(_ & q1 & q & q2 & Eq & Ec' & Nq & Fq)]]); [rewrite T in E1; discriminate E1|rewrite T in E2; discriminate E2|].
        rewrite Ec' in Ez. cbn [c_generic c_value] in Ez. destruct q; [congruence|]. rewrite zlen_cons in Ez. pose proof (zlen_nonneg _ q). lia.
      * apply Fin; [| |exact Uq].
        -- rewrite Ec. apply generic_valid. rewrite Er in Vr. apply Forall_app in Vr. destruct Vr as [_ Vr]. inversion Vr; assumption.
        -- split; [exact Ht|]. split; [exact Np|]. right. right. split; [apply Z.eqb_eq, E3|]. exists rs1, r, rs2. split; [exact Er|]. split; [exact Ec|]. split; [|exact F]. intros ->. rewrite Ec in Ez. discriminate Ez.
    + do 2 eexists. split; [reflexivity|]. left. eexists. split; [reflexivity|]. split; [reflexivity|]. intros c (_ & N & [[T _]|[[T _]|(_ & q1 & q & q2 & Eq & Ec' & Nq & Fq)]]); [rewrite T in E1; discriminate E1|rewrite T in E2; discriminate E2|]. subst rs c. apply Forall_app in F. destruct F as [_ F]. inversion F; contradiction.
  - do 2 eexists. split; [reflexivity|]. left. eexists. split; [reflexivity|]. split; [reflexivity|]. intros c (_ & N & [[T _]|[[T _]|[T _]]]); rewrite T in *; [discriminate E1|discriminate E2|discriminate E3].
Qed.
Lemma coh_none : forall s k, coherent s -> private s k = None -> key_bits (Hist s) k = None.
Proof. intros s k Co Ep. destruct (key_bits (Hist s) k) as [b|] eqn:Eb; [|reflexivity]. destruct (Co k b Eb) as (p & X & _). congruence. Qed.
Lemma no_key_no_cert : forall s k, base s -> key_bits (Hist s) k = None -> def_cert (Hist s) k = None /\ forall n, owner n = k -> cert (Hist s) n = None.
Proof.
  intros s k B E. destruct (spec_closed x_name x_content x_check _ (base_sane P ktype h0 s B)) as (_ & _ & C3 & _ & C5). assert (X : forall n, owner n = k -> cert (Hist s) n = None).
  { intros n On. destruct (cert (Hist s) n) as [c|] eqn:Ec; [|reflexivity]. destruct (C3 _ _ Ec) as (_ & _ & _ & _ & N). congruence. }
  split; [|exact X]. destruct (def_cert (Hist s) k) as [n|] eqn:Ed; [|reflexivity]. destruct (C5 _ _ Ed) as [On Nn]. rewrite (X n On) in Nn. congruence.
Qed.

Definition new_key (s : kstate) (i : name) (now : Z) (gen : P) (c : comp) (s' : kstate) (hk : handle) (sg : signature) : Prop :=
  let k := key_name i c in
  h_name hk = k /\ live_key (k_log s') hk /\ Hist s' = AddCert (with_sig (self_data k now (derive gen)) sg) :: AddKey i k (derive gen) :: Hist s /\
  (forall j, dkey s' j = match dkey s j with Some d => Some d | None => if name_dec i j then Some k else None end).
Theorem createKey_ok : forall s hd kp gen rs now rnd, base s -> coherent s -> live_id (k_log s) hd -> params_proper s (h_name hd) kp gen rs now ->
  exists s' r, createKey hd kp gen rs now rnd s = (s', r) /\ base s' /\ coherent s' /\ lives_on s s' /\ (no_orphans s -> no_orphans s') /\
   ((exists e, r = Err e) \/ exists c hk sg, r = Ok hk /\ new_id s (h_name hd) kp gen rs c /\ new_key s (h_name hd) now gen c s' hk sg) /\
   (forall c, new_id s (h_name hd) kp gen rs c -> in_time now -> name_ok (key_name (h_name hd) c) -> exists hk sg b, let k := key_name (h_name hd) c in
      r = Ok hk /\ new_key s (h_name hd) now gen c s' hk (sg (Some b)) /\ (forall k', nval k' -> private s' k' = if name_dec k k' then Some gen else private s k') /\
      signature_by s' (self_info hk now) (WithKey k) rnd (data_signed (with_sig (self_data k now (derive gen)) (sg (Some b)))) sg b).
Proof.
  intros s hd kp gen rs now rnd B Co L Pp. destruct (live_id_val P ktype h0 s hd B L) as [Vi _]. destruct (tpm_create_ok s (h_name hd) kp gen rs now B Vi Pp) as (s1 & r1 & E1 & [(e & -> & -> & No)|(c & Vc & Nw & -> & B1 & L1 & P1 & Pv & Un)]); unfold ChainModel.createKey.
  { rewrite (bind_err _ _ _ _ _ _ _ _ E1). do 2 eexists. split; [reflexivity|]. split; [exact B|]. split; [exact Co|]. split; [split; auto|]. split; [auto|]. split; [left; eauto|]. intros c Nw. destruct (No c Nw). }
  rewrite (bind_ok _ _ _ _ _ _ _ _ E1). set (k := key_name (h_name hd) c) in *. assert (Vk : nval k) by (apply key_name_val; assumption). destruct Pp as (Ni & _ & _ & Hn & _). assert (Ak : a_key k) by (exists (h_name hd), c; auto).
  unfold tpm_public. destruct (find_ok P ktype h0 s1 k B1 Vk) as (s2 & E2 & B2 & Q2 & L2 & P2). unfold bind at 1. unfold bind at 1. rewrite E2. rewrite (Pv k Vk). destruct (name_dec k k) as [_|]; [|congruence]. cbn [ret]. rewrite (bind_ok _ _ _ (ret (derive gen)) _ s2 s2 _ eq_refl).
  assert (H2 : Hist s2 = Hist s) by (rewrite L2, L1; reflexivity). assert (Pn : private s k = None) by apply Nw. assert (Kn : key_bits (Hist s) k = None) by (apply coh_none; assumption).
  destruct (Hder gen) as [ty Ety]. destruct (m_addKey P ktype ord Ho h0 s2 hd (derive gen) k ty B2) as (s3 & hk & E3 & N3 & K3 & B3 & T3 & V3 & H3 & C3).
  { rewrite L2, L1. exact L. } { exact Vk. } { split; [exact Ni|]. exists c. reflexivity. } { rewrite H2. exact Kn. } { exact Ety. }
  rewrite (bind_ok _ _ _ _ _ _ _ _ (an_key_ok P _ _ _ _ E3)). rewrite H2 in H3.
  assert (Pv3 : forall k', nval k' -> private s3 k' = if name_dec k k' then Some gen else private s k'). { intros k' V'. unfold ChainSpec.private. rewrite T3. change (private s2 k' = if name_dec k k' then Some gen else private s k'). rewrite (quiet_private P h0 _ _ k' Q2). apply Pv, V'. }
  assert (Kb3 : forall k', key_bits (Hist s3) k' = if name_dec k k' then Some (derive gen) else key_bits (Hist s) k') by (intros k'; rewrite H3; reflexivity).
  assert (Co3 : coherent s3). { intros k' b Eb. unfold ChainSpec.public, pib_hist in Eb. destruct (key_there P ktype h0 s3 k' b B3 Eb) as (_ & V' & _). rewrite (Pv3 k' V'). rewrite Kb3 in Eb. destruct (name_dec k k'); [exists gen; split; [reflexivity|]; injection Eb as <-; apply Hver|apply Co, Eb]. }
  assert (Or3 : no_orphans s -> no_orphans s3). { intros Or k' p V' Ep. unfold ChainSpec.public, pib_hist. rewrite Kb3. rewrite (Pv3 k' V') in Ep. destruct (name_dec k k'); [discriminate|]. exact (Or k' p V' Ep). }
  assert (Lv3 : lives_on s s3). { split; intros x Lx; apply V3; rewrite L2, L1; exact Lx. }
  assert (Dk3 : forall j, dkey s3 j = match dkey s j with Some d => Some d | None => if name_dec (h_name hd) j then Some k else None end).
  { intros j. unfold default_key. rewrite C3, L2, L1, H3. destruct (chosen (k_log s) j); [reflexivity|]. cbn [PibSpec.def_key]. destruct (PibSpec.def_key x_name x_content (Hist s) j); reflexivity. }
  assert (Nc3 : cert (Hist s3) (self_name (h_name hk) now) = None). { rewrite H3, N3. cbn [PibSpec.cert]. apply (proj2 (no_key_no_cert s k B Kn)). unfold self_name. apply owner_app2. }
  destruct (selfSign_ok P psign pverify ktype sha ord Ho Hkt h0 s3 hk now rnd B3 K3 Hn Nc3) as (s4 & r4 & bits & E4 & B4 & V4 & T4 & Kb4 & Cs & Full). rewrite N3 in Kb4, Cs, Full. rewrite Kb3 in Kb4. destruct (name_dec k k) as [_|]; [|congruence]. injection Kb4 as <-.
  assert (Pr4 : forall x, private s4 x = private s3 x) by (intros x; unfold ChainSpec.private; rewrite T4; reflexivity).
  destruct Cs as [(e & -> & Q4)|(sg & -> & H4 & D4 & Ck)].
  - rewrite (bind_err _ _ _ _ _ _ _ _ E4). do 2 eexists. split; [reflexivity|]. split; [exact B4|]. split; [apply (quiet_coh P psign pverify h0 _ _ Q4), Co3|]. split; [exact (lives_trans P _ _ _ Lv3 V4)|]. split; [intros Or; apply (quiet_orph P h0 _ _ Q4), Or3, Or|]. split; [left; eauto|].
    intros c' Nw' Ti Nm. pose proof (Un _ Nw') as ->. destruct (Full Co3 Ti Nm) as (? & ? & X & _). discriminate X.
  - rewrite (bind_ok _ _ _ _ _ _ _ _ E4). do 2 eexists. split; [reflexivity|]. split; [exact B4|].
    assert (Kb4 : forall k', key_bits (Hist s4) k' = key_bits (Hist s3) k'). { intros k'. rewrite H4. apply addCert_bits. cbn [d_name with_sig self_data]. unfold self_name. rewrite owner_app2, Kb3. destruct (name_dec k k); [reflexivity|congruence]. }
    assert (Nk : forall sg', with_sig (self_data k now (derive gen)) sg' = with_sig (self_data k now (derive gen)) sg -> new_key s (h_name hd) now gen c s4 hk sg').
    { intros sg' Es. split; [exact N3|]. split; [apply V4, K3|]. split; [fold k; rewrite Es, H4, H3; reflexivity|]. intros j. rewrite D4, Dk3. fold k. destruct (dkey s j); [reflexivity|]. replace (owner k) with (h_name hd) by (symmetry; apply owner_key). destruct (name_dec (h_name hd) j); reflexivity. }
    split; [intros k' b Eb; unfold ChainSpec.public, pib_hist in Eb; rewrite Kb4 in Eb; rewrite Pr4; apply Co3, Eb|]. split; [exact (lives_trans P _ _ _ Lv3 V4)|].
    split; [intros Or k' p V' Ep; unfold ChainSpec.public, pib_hist; rewrite Kb4; rewrite Pr4 in Ep; exact (Or3 Or k' p V' Ep)|].
    split; [right; exists c, hk, sg; split; [reflexivity|]; split; [exact Nw|]; apply Nk; reflexivity|].
    intros c' Nw' Ti Nm. pose proof (Un _ Nw') as ->. destruct (Full Co3 Ti Nm) as (sg' & b & X & G). injection X as X. exists hk, sg', b. cbv zeta. fold k. split; [reflexivity|]. split; [apply Nk; unfold with_sig; rewrite <- X; reflexivity|]. split; [intros k' V'; rewrite Pr4; apply Pv3, V'|].
    destruct G as (b0 & ty0 & p0 & G1 & G2 & G3 & G4). exists b0, ty0, p0. unfold ChainSpec.public, pib_hist in *. rewrite Kb4, Pr4. auto.
Qed.
End K.
