(** * The invariant of the histories of the identity manager *)
From Verif Require Import Base BaseLemmas NameModel NameSpec NameProofs UriModel UriSpec UriProofs UriProps BlobModel DictModel DictProofs DerModel PkcsModel WireModel IcertModel IcertSpec IcertProps IdmModel IdmSpec IdmProofs.
Local Open Scope res_scope.

Lemma uri_inj : forall a b, plain a -> plain b -> uri a = uri b -> a = b.
Proof. intros a b A B E. exact (C12_uri_injective a b false A B E). Qed.
Lemma uri_nonempty : forall n, uri n <> []. Proof. intros [|x n]; discriminate. Qed.
Lemma plain_removelast : forall k, plain k -> plain (removelast k).
Proof. intro k. destruct k as [|x k] using rev_ind; [auto|]. rewrite removelast_last. intro H. apply Forall_app in H. tauto. Qed.
Lemma plain_snoc : forall k x, plain k -> plain_comp x -> plain (k ++ [x]).
Proof. intros k x H X. apply Forall_app. split; [exact H|]. constructor; [exact X|constructor]. Qed.
Lemma plain_generic : forall v, bytes_ok v -> plain_comp (c_generic v).
Proof. intros v H. split; [exact H|]. left. split; reflexivity. Qed.
Lemma plain_key_name : forall n p, plain n -> key_name n p -> plain p.
Proof. intros n p H (a & k & b & i & c & -> & _ & _ & _ & _ & ->). unfold plain in *. rewrite !Forall_app in *. tauto. Qed.
Lemma plain_stamp : forall (ksk : bool) t, 0 <= t -> plain_comp (c_generic ((if ksk then ksk_text else dsk_text) ++ str_int t)).
Proof.
  intros ksk t H. apply plain_generic. apply bytes_ok_app; split; [destruct ksk; apply bytes_okb_ok; reflexivity|]. destruct (str_int_dig t H) as [D _]. eapply Forall_impl; [|exact D]. intros a Ha. unfold isdig, is_byte in *. lia.
Qed.
Lemma version_plain : forall now v, 0 <= now -> c_fromVersion now = Ok v -> plain_comp v /\ exists r, v = c_generic (253 :: r).
Proof.
  intros now v H E. unfold c_fromVersion in E. rewrite c_fromMarker_ok in E; [|exact H|unfold is_byte, MARK_VERSION; lia]. injection E as <-. split; [|eexists; reflexivity]. apply plain_generic. constructor; [unfold is_byte, MARK_VERSION; lia|apply TlvDecProofs.nonneg_ok; exact H].
Qed.
Lemma set_name_ok : forall n c, the (id_setName n) cert_new = Ok c -> exists p, c = ICert (Data n mi_empty None (SigRsa kl_empty vp_none None)) (10 ^ 37) (- 10 ^ 37) [] [] pk_empty (Some p) /\ key_name n p.
Proof.
  intros n c H. unfold the, id_setName in H. destruct (isCorrectName n); [|discriminate H]. unfold setPublicKeyName, mbind, mlift in H. cbn [ic_setData ic_data d_name] in H.
  destruct (certificateNameToPublicKeyName n) as [p|] eqn:E; [|discriminate H]. apply C89_key_name in E. cbn in H. injection H as <-. exists p. split; [reflexivity|exact E].
Qed.
Lemma encode_frame : forall c c', ic_encode c = Ok c' -> ic_publicKeyName c' = ic_publicKeyName c /\ d_name (ic_data c') = d_name (ic_data c) /\ ic_key c' = ic_key c.
Proof. intros c c' H. unfold ic_encode in H. destruct (ic_toDer c); [|discriminate H]. injection H as <-. auto. Qed.

Lemma rbind_ok : forall A B (m : res A) (f : A -> res B) y, rbind m f = Ok y -> exists v, m = Ok v /\ f v = Ok y.
Proof. intros A B [v|e] f y H; [eauto|discriminate H]. Qed.
Lemma pk_new_der : forall lp fl b y, pk_new lp fl b = Ok y -> pk_der y = Some b.
Proof.
  intros lp fl b y H. unfold pk_new in H. cbv zeta in H. apply rbind_ok in H. destruct H as (v & _ & H). destruct (is_oid_str v RSA_ENCRYPTION_OID).
  - apply rbind_ok in H. destruct H as (_ & _ & H). injection H as <-. reflexivity.
  - destruct (is_oid_str v EC_ENCRYPTION_OID); [injection H as <-; reflexivity|discriminate H].
Qed.

Section Proofs.
Context {P : Type}.
Variable gen : Z -> Z -> Z -> res P.
Variable derive : P -> res bytes.
Variable psign : P -> Z -> bytes -> res bytes.
Variable load_pkcs8 : bytes -> Z -> res P.
Variable load_public : bytes -> res unit.
Variable floor40 : Z -> Z.
Notation st := (st P). Notation im := (im P).
Notation perform := (perform P gen derive psign load_pkcs8 load_public floor40).
Notation run := (run P gen derive psign load_pkcs8 load_public floor40).
Notation sget := (dget zlist_eqb). Notation sset := (dset zlist_eqb). Notation sin := (din zlist_eqb).
Variable strict : bool.

Record inv (s : st) : Prop := {
  inv_ids : forall u v, sget (ids P s) u = Some v -> exists i, plain i /\ u = uri i /\ forall k, v = Some k -> plain k /\ removelast k = i;
  inv_keys : forall u t b c, sget (keys P s) u = Some (t, b, c) -> exists k, plain k /\ k <> [] /\ u = uri k /\ sget (ids P s) (uri (removelast k)) <> None /\
    forall n, c = Some n -> plain n /\ key_name n k /\ (strict = true -> sget (certs P s) (uri n) <> None);
  inv_certs : forall u w, sget (certs P s) u = Some w -> exists n p, plain n /\ u = uri n /\ key_name n p /\ (p = [] \/ sget (keys P s) (uri p) <> None);
  inv_dflt : dflt P s = [] \/ exists i, plain i /\ dflt P s = uri i /\ sget (ids P s) (uri i) <> None }.

Lemma inv_init : forall start, inv (st_init P start).
Proof. intro start. split; cbn; try discriminate. now left. Qed.
(** Membership is kept *)
Lemma kept_id : forall s s' u, keeps s s' -> sget (ids P s) u <> None -> sget (ids P s') u <> None.
Proof. intros s s' u (K & _) H. destruct (sget (ids P s) u) as [v|] eqn:E; [|congruence]. destruct (K _ _ E) as (v' & -> & _). discriminate. Qed.
Lemma kept_key : forall s s' u, keeps s s' -> sget (keys P s) u <> None -> sget (keys P s') u <> None.
Proof. intros s s' u (_ & K & _) H. destruct (sget (keys P s) u) as [[[t b] c]|] eqn:E; [|congruence]. destruct (K _ _ _ _ E) as (v' & -> & _). discriminate. Qed.
Lemma kept_cert : forall s s' u, keeps s s' -> sget (certs P s) u <> None -> sget (certs P s') u <> None.
Proof. intros s s' u (_ & _ & K & _) H. destruct (sget (certs P s) u) as [w|] eqn:E; [|congruence]. rewrite (K _ _ E). discriminate. Qed.

(** [m] keeps the invariant; after it [Q] holds of its result *)
Definition tri {A} (Pre : st -> Prop) (m : im A) (Q : A -> st -> Prop) : Prop := forall s, inv s -> Pre s -> inv (fst (m s)) /\ forall a, snd (m s) = Ok a -> Q a (fst (m s)).
Lemma tri_bind : forall A B Pre (m : im A) (k : A -> im B) Q R, tri Pre m Q -> (forall a, tri (Q a) (k a) R) -> tri Pre (bind P m k) R.
Proof.
  intros A B Pre m k Q R Hm Hk s I0 H0. destruct (Hm s I0 H0) as (I1 & H1). unfold bind. destruct (m s) as [s1 r]. cbn [fst snd] in *. destruct r as [a|e]; [apply Hk; [exact I1|now apply H1]|]. split; [exact I1|intros a X; discriminate X].
Qed.
Lemma tri_pre : forall A (Pre Pre' : st -> Prop) (m : im A) Q, tri Pre' m Q -> (forall s, Pre s -> Pre' s) -> tri Pre m Q.
Proof. intros A Pre Pre' m Q H X s I0 H0. apply H; auto. Qed.
Lemma tri_post : forall A Pre (m : im A) (Q Q' : A -> st -> Prop), tri Pre m Q -> (forall a s, Q a s -> Q' a s) -> tri Pre m Q'.
Proof. intros A Pre m Q Q' H X s I0 H0. destruct (H s I0 H0) as (I1 & H1). split; [exact I1|auto]. Qed.
Lemma tri_ret : forall A Pre (a : A), tri Pre (ret P a) (fun x s => x = a /\ Pre s).
Proof. intros A Pre a s I0 H0. split; [exact I0|]. intros x [= <-]. auto. Qed.
Lemma tri_ret' : forall A (Pre : st -> Prop) (a : A) (Q : A -> st -> Prop), (forall s, inv s -> Pre s -> Q a s) -> tri Pre (ret P a) Q.
Proof. intros A Pre a Q H s I0 H0. split; [exact I0|]. intros x [= <-]. cbn. auto. Qed.
Lemma tri_raise : forall A Pre e Q, tri Pre (@raise P A e) Q.
Proof. intros A Pre e Q s I0 H0. split; [exact I0|]. intros x X. discriminate X. Qed.
Lemma tri_lift : forall A Pre (r : res A), tri Pre (lift P r) (fun x s => r = Ok x /\ Pre s).
Proof. intros A Pre r s I0 H0. split; [exact I0|]. intros x X. auto. Qed.
Lemma tri_get : forall A Pre (f : st -> res A), tri Pre (get P f) (fun x s => f s = Ok x /\ Pre s /\ inv s).
Proof. intros A Pre f s I0 H0. split; [exact I0|]. intros x X. auto. Qed.
Lemma tri_modify : forall (Pre : st -> Prop) f (Q : unit -> st -> Prop), (forall s, inv s -> Pre s -> inv (f s) /\ Q tt (f s)) -> tri Pre (modify P f) Q.
Proof. intros Pre f Q H s I0 H0. destruct (H s I0 H0) as [A B]. split; [exact A|]. intros [] _. exact B. Qed.
Lemma tri_try : forall A (Pre : st -> Prop) (m h : im A) Q, tri Pre m Q -> (forall s, Pre s -> Pre (fst (m s))) -> tri Pre h Q -> tri Pre (try_ P m h) Q.
Proof.
  intros A Pre m h Q Hm Fr Hh s I0 H0. destruct (Hm s I0 H0) as (I1 & H1). specialize (Fr s H0). unfold try_. destruct (m s) as [s1 r]. cbn [fst snd] in *. destruct r as [a|e]; [split; [exact I1|intros x [= <-]; now apply H1]|].
  destruct e; try (split; [exact I1|intros x X; discriminate X]). apply Hh; assumption.
Qed.

Lemma inv_other : forall s s', ids P s' = ids P s -> keys P s' = keys P s -> certs P s' = certs P s -> dflt P s' = dflt P s -> inv s -> inv s'.
Proof. intros s s' A B C D [I1 I2 I3 I4]. split; rewrite ?A, ?B, ?C, ?D; assumption. Qed.
Lemma inv_set_ids : forall s i v, inv s -> plain i -> (forall k, v = Some k -> plain k /\ removelast k = i) -> inv (set_ids P (sset (ids P s) (uri i) v) s).
Proof.
  intros s i v [I1 I2 I3 I4] Hi Hv. assert (M : forall u, sget (ids P s) u <> None -> sget (sset (ids P s) (uri i) v) u <> None) by (intros u X; rewrite sget_set; destruct (zlist_eqb _ _); [discriminate|exact X]). split; cbn.
  - intros u w G. rewrite sget_set in G. destruct (zlist_eqb (uri i) u) eqn:E; [|eauto]. apply zlist_eqb_eq in E. subst u. injection G as <-. exists i. auto.
  - intros u t b c G. destruct (I2 _ _ _ _ G) as (k & A & B & C & D & E). exists k. auto 6.
  - exact I3.
  - destruct I4 as [I4|(d & A & B & C)]; [now left|]. right. exists d. auto.
Qed.
Lemma inv_identity : forall i s, plain i -> inv s -> inv (addIdentity P i s) /\ sget (ids P (addIdentity P i s)) (uri i) <> None.
Proof.
  intros i s Hi I0. unfold addIdentity, doesIdentityExist. destruct (sin _ _) eqn:E.
  - split; [exact I0|]. apply sin_some in E. destruct E as [v ->]. discriminate.
  - split; [apply inv_set_ids; auto; intros k X; discriminate X|]. cbn. rewrite sget_same. discriminate.
Qed.
Lemma tri_addKey : forall (Pre : st -> Prop) k t b, plain k -> (forall s s', keeps s s' -> Pre s -> Pre s') -> tri Pre (addKey P k t b) (fun _ s => Pre s /\ (k = [] \/ sget (keys P s) (uri k) <> None)).
Proof.
  intros Pre k t b Hk Kp s I0 H0. pose proof (kp_addKey k t b s) as K. unfold addKey in *. destruct (zlen k =? 0) eqn:Z0.
  { split; [exact I0|]. intros _ _. split; [exact H0|]. left. destruct k; [reflexivity|]. rewrite zlen_cons in Z0. pose proof (zlen_nonneg _ k). lia. }
  destruct (doesKeyExist P k s) eqn:E.
  { split; [exact I0|]. intros _ _. split; [exact H0|]. right. apply sin_some in E. destruct E as [v E]. cbn. rewrite E. discriminate. }
  rewrite sub_last in * by lia. cbn [fst snd] in *. specialize (Kp _ _ K H0). destruct (inv_identity (removelast k) s (plain_removelast _ Hk) I0) as [I1 M].
  assert (E' : sget (keys P (addIdentity P (removelast k) s)) (uri k) = None) by (apply sin_none; unfold addIdentity; destruct (doesIdentityExist _ _ _); exact E).
  set (s1 := addIdentity P (removelast k) s) in *. split.
  - destruct I1 as [J1 J2 J3 J4]. split; cbn; [exact J1| |intros u w G|exact J4].
    + intros u t' b' c G. rewrite sget_set in G. destruct (zlist_eqb (uri k) u) eqn:Eu; [|eauto]. apply zlist_eqb_eq in Eu. subst u. injection G as <- <- <-. exists k. split; [exact Hk|]. split; [intros ->; discriminate Z0|]. split; [reflexivity|]. split; [exact M|intros n X; discriminate X].
    + destruct (J3 _ _ G) as (n & p & A & B & C & D). exists n, p. split; [exact A|]. split; [exact B|]. split; [exact C|]. destruct D as [D|D]; [now left|]. right. rewrite sget_set. destruct (zlist_eqb _ _); [discriminate|exact D].
  - intros _ _. split; [exact Kp|]. right. cbn. rewrite sget_same. discriminate.
Qed.
Lemma tri_addCert : forall (Pre : st -> Prop) c p, cert_named c -> ic_publicKeyName c = Some p -> (forall s s', keeps s s' -> Pre s -> Pre s') ->
  tri Pre (st_addCertificate P c) (fun _ s => Pre s /\ (p = [] \/ sget (keys P s) (uri p) <> None) /\ sget (certs P s) (uri (d_name (ic_data c))) <> None).
Proof.
  intros Pre c p (Hn & p' & Ep' & Kn) Ep Kp. rewrite Ep in Ep'. injection Ep' as <-. unfold st_addCertificate. rewrite Ep. set (cont := fun k : name => bind P (addKey P k _ _) _). change (tri Pre (cont p) (fun _ s => Pre s /\ (p = [] \/ sget (keys P s) (uri p) <> None) /\ sget (certs P s) (uri (d_name (ic_data c))) <> None)). subst cont. cbv beta.
  eapply tri_bind; [apply (tri_addKey Pre p); [exact (plain_key_name _ _ Hn Kn)|exact Kp]|]. intros _ s I0 [H0 H1]. pose proof (fun x y => Kp s x y H0) as Kq. clear Kp. unfold bind, get. destruct (doesCertificateExist P _ s) eqn:E.
  - split; [exact I0|]. intros [] _. cbn [ret fst]. apply sin_some in E. destruct E as [w E]. rewrite E. split; [exact H0|]. split; [exact H1|discriminate].
  - unfold lift. destruct (encodeData _) as [w|e]; [|split; [exact I0|intros a X; discriminate X]]. unfold modify. cbn [fst snd]. set (n := d_name (ic_data c)) in *.
    assert (K : keeps s (set_certs P (sset (certs P s) (uri n) (fst w)) s)).
    { split; [cbn; eauto|]. split; [cbn; eauto|]. split; [|cbn; lia]. intros u x G. cbn. rewrite sget_set. destruct (zlist_eqb _ u) eqn:Eu; [|exact G]. apply zlist_eqb_eq in Eu. subst. apply sin_none in E. congruence. }
    split.
    + destruct I0 as [J1 J2 J3 J4]. split; cbn; [exact J1| | |exact J4].
      * intros u t b c' G. destruct (J2 _ _ _ _ G) as (k & A & B & C & D & F). exists k. split; [exact A|]. split; [exact B|]. split; [exact C|]. split; [exact D|]. intros m Em. destruct (F m Em) as (F1 & F2 & F3). split; [exact F1|]. split; [exact F2|]. intro S. rewrite sget_set. destruct (zlist_eqb _ _); [discriminate|now apply F3].
      * intros u x G. rewrite sget_set in G. destruct (zlist_eqb (uri n) u) eqn:Eu; [|eauto]. apply zlist_eqb_eq in Eu. subst u. exists n, p. auto.
    + intros [] _. split; [now apply Kq|]. split; [exact H1|]. cbn. rewrite sget_same. discriminate.
Qed.
Lemma tri_setKey : forall (Pre : st -> Prop) k check, plain k -> (forall s s', keeps s s' -> Pre s -> Pre s') -> tri Pre (setDefaultKeyNameForIdentity P k check) (fun _ s => Pre s /\ (sget (ids P s) (uri (removelast k)) <> None -> sget (ids P s) (uri (removelast k)) = Some (Some k))).
Proof.
  intros Pre k check Hk Kp s I0 H0. pose proof (Kp _ _ (kp_setKey k check s) H0) as H1. unfold setDefaultKeyNameForIdentity in *. rewrite prefix_last in *. unfold bind, lift in *. destruct (_ && _); [split; [exact I0|intros a X; discriminate X]|]. unfold modify in *. cbn [fst snd] in *.
  destruct (doesIdentityExist P _ s) eqn:E.
  - split; [apply inv_set_ids; [exact I0|now apply plain_removelast|intros k' [= <-]; auto]|]. intros _ _. split; [exact H1|]. intros _. cbn. apply sget_same.
  - split; [exact I0|]. intros _ _. split; [exact H1|]. intro X. apply sin_none in E. contradiction.
Qed.
Lemma tri_setCert : forall (Pre : st -> Prop) c p, cert_named c -> ic_publicKeyName c = Some p -> (forall s s', keeps s s' -> Pre s -> Pre s') -> (forall s, Pre s -> strict = true -> sget (certs P s) (uri (d_name (ic_data c))) <> None) ->
  tri Pre (setDefaultCertificateForKey P c) (fun _ s => Pre s /\ exists t b, sget (keys P s) (uri p) = Some (t, b, Some (d_name (ic_data c)))).
Proof.
  intros Pre c p (Hn & p' & Ep' & Kn) Ep Kp Hs s I0 H0. rewrite Ep in Ep'. injection Ep' as <-. pose proof (Kp _ _ (kp_setCert c s) H0) as H1. unfold setDefaultCertificateForKey in *. rewrite Ep in *. unfold bind, lift, get in *. destruct (doesKeyExist P p s) eqn:E; cbn [negb] in *; [|split; [exact I0|intros a X; discriminate X]].
  unfold modify, setDefaultCertificateNameForKey in *. cbn [fst snd] in *. apply sin_some in E. destruct E as [[[t b] c'] E]. rewrite E in *. split.
  - destruct I0 as [J1 J2 J3 J4]. split; cbn; [exact J1| | |exact J4].
    + intros u t' b' c2 G. rewrite sget_set in G. destruct (zlist_eqb (uri p) u) eqn:Eu; [|eauto]. apply zlist_eqb_eq in Eu. subst u. injection G as <- <- <-. destruct (J2 _ _ _ _ E) as (k & A & B & C & D & _). exists k. split; [exact A|]. split; [exact B|]. split; [exact C|]. split; [exact D|].
      intros n [= <-]. split; [exact Hn|]. split; [|intro S; now apply Hs]. apply uri_inj in C; [|exact (plain_key_name _ _ Hn Kn)|exact A]. subst. exact Kn.
    + intros u w G. destruct (J3 _ _ G) as (n & q & A & B & C & D). exists n, q. split; [exact A|]. split; [exact B|]. split; [exact C|]. destruct D as [D|D]; [now left|]. right. rewrite sget_set. destruct (zlist_eqb _ _); [discriminate|exact D].
  - intros _ _. split; [exact H1|]. exists t, b. cbn. apply sget_same.
Qed.
Lemma bind_eq : forall A B (m : im A) (k : A -> im B) s, bind P m k s = match m s with (s', Ok a) => k a s' | (s', Err e) => (s', Err e) end.
Proof. intros. unfold bind. destruct (m s) as [s' [a|e]]; reflexivity. Qed.
Lemma setCert_ids : forall c s, ids P (fst (setDefaultCertificateForKey P c s)) = ids P s.
Proof.
  intros c s. unfold setDefaultCertificateForKey, bind, lift, get. destruct (ic_publicKeyName c); [|reflexivity]. destruct (negb _); [reflexivity|]. unfold modify, setDefaultCertificateNameForKey. cbn. destruct (sget (keys P s) _) as [[[t b] c']|]; reflexivity.
Qed.
Definition default_cert (s : st) (k n : name) : Prop := exists t b, sget (keys P s) (uri k) = Some (t, b, Some n).
Lemma key_identity : forall s k, inv s -> plain k -> sget (keys P s) (uri k) <> None -> sget (ids P s) (uri (removelast k)) <> None.
Proof. intros s k I0 Hk H. destruct (sget (keys P s) (uri k)) as [[[t b] c]|] eqn:E; [|congruence]. destruct (inv_keys _ I0 _ _ _ _ E) as (k' & A & _ & C & D & _). apply uri_inj in C; [|exact Hk|exact A]. subst. exact D. Qed.
Lemma idDefault_ok : forall c p s, inv s -> cert_named c -> ic_publicKeyName c = Some p -> let r := addCertificateAsIdentityDefault P c s in
  inv (fst r) /\ (snd r = Ok tt -> sget (certs P (fst r)) (uri (d_name (ic_data c))) <> None /\ default_cert (fst r) p (d_name (ic_data c)) /\ sget (ids P (fst r)) (uri (removelast p)) = Some (Some p)).
Proof.
  intros c p s I0 Hc Ep r. subst r. destruct (tri_addCert (fun _ => True) c p Hc Ep ltac:(auto) s I0 Logic.I) as (I1 & Q1). unfold addCertificateAsIdentityDefault. rewrite bind_eq. destruct (st_addCertificate P c s) as [s1 [[]|e]]; cbn [fst snd] in *; [|split; [exact I1|intro X; discriminate X]].
  destruct (Q1 tt eq_refl) as (_ & K1 & C1). clear Q1. rewrite Ep. rewrite bind_eq. cbv beta iota delta [lift]. assert (Hp : plain p) by (destruct Hc as (Hn & p' & E & Kn); rewrite Ep in E; injection E as <-; exact (plain_key_name _ _ Hn Kn)).
  destruct (tri_setKey (fun x => keeps s1 x) p [] Hp (fun a b X Y => keeps_trans _ _ _ Y X) s1 I1 (keeps_refl _)) as (I2 & Q2). rewrite bind_eq. destruct (setDefaultKeyNameForIdentity P p [] s1) as [s2 [[]|e]]; cbn [fst snd] in *; [|split; [exact I2|intro X; discriminate X]].
  destruct (Q2 tt eq_refl) as (K2 & D2). clear Q2.
  destruct (tri_setCert (fun x => keeps s2 x) c p Hc Ep (fun a b X Y => keeps_trans _ _ _ Y X)) with (s := s2) as (I3 & Q3); [|exact I2|apply keeps_refl|].
  { intros a X _. eapply kept_cert; [exact X|]. eapply kept_cert; [exact K2|exact C1]. }
  pose proof (setCert_ids c s2) as Ei. destruct (setDefaultCertificateForKey P c s2) as [s3 [[]|e]]; cbn [fst snd] in *; [|split; [exact I3|intro X; discriminate X]]. split; [exact I3|]. intros _. destruct (Q3 tt eq_refl) as (K3 & t & b & E3).
  split; [eapply kept_cert; [exact K3|]; eapply kept_cert; [exact K2|exact C1]|]. split; [exists t, b; exact E3|]. rewrite Ei. apply D2. rewrite <- Ei. apply (key_identity s3 p I3 Hp). rewrite E3. discriminate.
Qed.
Lemma newName_ok : forall i ksk now s, inv s -> plain i -> 0 <= now -> let r := getNewKeyName P i ksk now s in
  inv (fst r) /\ fst r = set_last P (Z.max (now / 1000) (lastTs P s + 1)) s /\
  (snd r = Err SecurityException \/ exists k, snd r = Ok k /\ stamped k i ksk (Z.max (now / 1000) (lastTs P s + 1)) /\ plain k /\ sget (keys P s) (uri k) = None).
Proof.
  intros i ksk now s I0 Hi Hn r. subst r. unfold getNewKeyName, bind, get, modify. cbv beta zeta. assert (T : (if now / 1000 <=? lastTs P s then lastTs P s + 1 else now / 1000) = Z.max (now / 1000) (lastTs P s + 1)) by (destruct (_ <=? _) eqn:E; lia). rewrite T. set (t := Z.max _ _) in *.
  assert (T0 : 0 <= t) by (subst t; assert (0 <= now / 1000) by (apply Z.div_pos; lia); lia).
  assert (I1 : inv (set_last P t s)) by (apply (inv_other s); auto).
  destruct (doesKeyExist P _ _) eqn:E; (split; [exact I1|]; split; [reflexivity|]); [now left|]. right. eexists. split; [reflexivity|]. split; [reflexivity|]. split; [apply plain_snoc; [exact Hi|now apply plain_stamp]|]. now apply sin_none in E.
Qed.
Lemma generate_ok : forall i ksk t size r now s, inv s -> plain i -> 0 <= now -> let x := generateKeyPair P gen derive load_public floor40 i ksk t size r now s in
  inv (fst x) /\ ids P (fst x) = ids P (if match snd x with Ok _ => true | Err _ => false end then addIdentity P i s else s) /\ dflt P (fst x) = dflt P s /\ lastTs P (fst x) = Z.max (now / 1000) (lastTs P s + 1) /\
  forall k, snd x = Ok k -> stamped k i ksk (Z.max (now / 1000) (lastTs P s + 1)) /\ plain k /\ sget (keys P s) (uri k) = None /\
    exists p b y, gen t size r = Ok p /\ derive p = Ok b /\ pk_new load_public floor40 b = Ok y /\ keys P (fst x) = sset (keys P s) (uri k) (t, b, None) /\
      sget (pubs P (fst x)) (uri k) = Some y /\ sget (privs P (fst x)) (uri k) = Some p /\ certs P (fst x) = certs P s.
Proof.
  intros i ksk t size r now s I0 Hi Hn x. subst x. destruct (newName_ok i ksk now s I0 Hi Hn) as (I1 & E1 & R1). unfold generateKeyPair. rewrite bind_eq. destruct (getNewKeyName P i ksk now s) as [s1 r1]. cbn [fst snd] in *. subst s1. set (T := Z.max _ _) in *.
  destruct R1 as [->|(k & -> & St & Hk & N)]; [split; [exact I1|]; split; [reflexivity|]; split; [reflexivity|]; split; [reflexivity|]; intros k X; discriminate X|].
  unfold tpm_generate, bind, lift, modify, get, tpm_getPublicKey. cbv beta iota.
  assert (Bad : forall s', ids P s' = ids P s -> keys P s' = keys P s -> certs P s' = certs P s -> dflt P s' = dflt P s -> lastTs P s' = T -> forall e, let x := (s', @Err name e) in inv (fst x) /\ ids P (fst x) = ids P (if match snd x with Ok _ => true | Err _ => false end then addIdentity P i s else s) /\ dflt P (fst x) = dflt P s /\ lastTs P (fst x) = T /\
    forall k, snd x = Ok k -> stamped k i ksk T /\ plain k /\ sget (keys P s) (uri k) = None /\
    exists p b y, gen t size r = Ok p /\ derive p = Ok b /\ pk_new load_public floor40 b = Ok y /\ keys P (fst x) = sset (keys P s) (uri k) (t, b, None) /\ sget (pubs P (fst x)) (uri k) = Some y /\ sget (privs P (fst x)) (uri k) = Some p /\ certs P (fst x) = certs P s).
  { intros s' A B C D E e. cbn [fst snd]. split; [apply (inv_other s); assumption|]. split; [exact A|]. split; [exact D|]. split; [exact E|]. intros k' X. discriminate X. }
  destruct (gen t size r) as [p|] eqn:Eg; [|apply Bad; reflexivity]. destruct (derive p) as [b|] eqn:Ed; [|apply Bad; reflexivity]. destruct (pk_new load_public floor40 b) as [y|] eqn:Ey; [|apply Bad; reflexivity].
  cbn [pubs set_pubs set_privs set_last]. rewrite sget_same. cbv beta iota.
  pose proof (pk_new_der _ _ _ _ Ey) as Eb.
  rewrite Eb. match goal with |- context [addKey P k t b ?a] => set (s2 := a) end. assert (I2 : inv s2) by (apply (inv_other s); auto).
  destruct (tri_addKey (fun _ => True) k t b Hk ltac:(auto) s2 I2 Logic.I) as (I3 & _). unfold addKey in *. assert (Hz : (zlen k =? 0) = false) by (rewrite St; rewrite zlen_app, zlen_cons, zlen_nil; pose proof (zlen_nonneg _ i); lia). rewrite Hz in *.
  assert (Hd : doesKeyExist P k s2 = false) by (apply sin_none; exact N). rewrite Hd in *. rewrite sub_last in * by lia. assert (Er : removelast k = i) by (rewrite St; apply removelast_last). rewrite Er in *. cbn [ret fst snd] in *.
  assert (Ea : ids P (addIdentity P i s2) = ids P (addIdentity P i s) /\ keys P (addIdentity P i s2) = keys P s /\ certs P (addIdentity P i s2) = certs P s /\ dflt P (addIdentity P i s2) = dflt P s /\ lastTs P (addIdentity P i s2) = T /\ pubs P (addIdentity P i s2) = pubs P s2 /\ privs P (addIdentity P i s2) = privs P s2) by (unfold addIdentity, doesIdentityExist; change (ids P s2) with (ids P s); destruct (sin _ _); auto 10).
  destruct Ea as (A1 & A2 & A3 & A4 & A5 & A6 & A7). split; [exact I3|]. split; [exact A1|]. split; [exact A4|]. split; [exact A5|]. intros k' [= <-]. split; [exact St|]. split; [exact Hk|]. split; [exact N|]. exists p, b, y. split; [reflexivity|]. split; [exact Ed|]. split; [exact Ey|].
  split; [cbn; rewrite A2; reflexivity|]. split; [cbn; rewrite A6; apply sget_same|]. split; [cbn; rewrite A7; apply sget_same|exact A3].
Qed.
End Proofs.
