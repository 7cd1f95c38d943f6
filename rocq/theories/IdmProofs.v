(** * The identity manager: what every operation keeps, and the invariant of the histories *)
From Verif Require Import Base BaseLemmas NameModel NameSpec NameProofs UriModel UriSpec UriProofs UriProps BlobModel DictModel DictProofs DerModel PkcsModel WireModel IcertModel IcertSpec IcertProps IdmModel IdmSpec.
Local Open Scope res_scope.

Section Proofs.
Context {P : Type}.
Variable gen : Z -> Z -> Z -> res P.
Variable derive : P -> res bytes.
Variable psign : P -> Z -> bytes -> res bytes.
Variable load_pkcs8 : bytes -> Z -> res P.
Variable load_public : bytes -> res unit.
Variable floor40 : Z -> Z.
Notation st := (st P). Notation im := (im P).
Notation perform := (perform P gen derive psign load_pkcs8 load_public floor40).
Notation run := (run P gen derive psign load_pkcs8 load_public floor40).
Notation sget := (dget zlist_eqb). Notation sset := (dset zlist_eqb). Notation sin := (din zlist_eqb).

Lemma sget_set : forall V (d : dict str V) k v k', sget (sset d k v) k' = if zlist_eqb k k' then Some v else sget d k'.
Proof.
  intros V d k v k'. induction d as [|[a x] d IH]; cbn [dset dget]; [reflexivity|]. destruct (zlist_eqb a k) eqn:E; cbn [dget].
  - apply zlist_eqb_eq in E. subst a. destruct (zlist_eqb k k'); reflexivity.
  - destruct (zlist_eqb a k') eqn:E'; [|exact IH]. destruct (zlist_eqb k k') eqn:E2; [|reflexivity]. apply zlist_eqb_eq in E', E2. subst. assert (zlist_eqb k' k' = true) by now apply zlist_eqb_eq. congruence.
Qed.
Lemma sget_same : forall V (d : dict str V) k v, sget (sset d k v) k = Some v.
Proof. intros. rewrite sget_set. assert (zlist_eqb k k = true) as -> by now apply zlist_eqb_eq. reflexivity. Qed.
Lemma sin_some : forall V (d : dict str V) k, sin d k = true <-> exists v, sget d k = Some v.
Proof. intros. unfold din. destruct (sget d k); split; [eauto|reflexivity|intro H; discriminate H|intros [v H]; discriminate H]. Qed.
Lemma sin_none : forall V (d : dict str V) k, sin d k = false <-> sget d k = None.
Proof. intros. unfold din. destruct (sget d k); split; congruence. Qed.
Lemma prefix_last : forall k, n_getPrefix k (-1) = Ok (removelast k).
Proof.
  intro k. destruct k as [|x k] using rev_ind; [reflexivity|]. unfold n_getPrefix. change (-1 <? 0) with true. cbv iota. rewrite n_getSubName_ok by zlia. change (0 <? 0) with false. cbv iota.
  rewrite (zslice_app' _ [] k [x]) by zlia. rewrite removelast_last. reflexivity.
Qed.
Lemma sub_last : forall k, zlen k <> 0 -> n_getSubName k 0 (Some (zlen k - 1)) = Ok (removelast k).
Proof. intros k H. rewrite <- prefix_last. unfold n_getPrefix. change (-1 <? 0) with true. cbv iota. f_equal. Qed.

(** ** What is kept *)
Definition keeps (s s' : st) : Prop :=
  (forall u v, sget (ids P s) u = Some v -> exists v', sget (ids P s') u = Some v' /\ (v <> None -> v' <> None)) /\
  (forall u t b c, sget (keys P s) u = Some (t, b, c) -> exists c', sget (keys P s') u = Some (t, b, c') /\ (c <> None -> c' <> None)) /\
  (forall u w, sget (certs P s) u = Some w -> sget (certs P s') u = Some w) /\ lastTs P s <= lastTs P s'.
Lemma keeps_refl : forall s, keeps s s.
Proof. intro s. split; [eauto|]. split; [eauto|]. split; [auto|lia]. Qed.
Lemma keeps_trans : forall a b c, keeps a b -> keeps b c -> keeps a c.
Proof.
  intros a b c (A1 & A2 & A3 & A4) (B1 & B2 & B3 & B4). split; [|split; [|split; [auto|lia]]].
  - intros u v H. destruct (A1 _ _ H) as (v' & H' & N). destruct (B1 _ _ H') as (v2 & H2 & N2). eauto.
  - intros u t x y H. destruct (A2 _ _ _ _ H) as (v' & H' & N). destruct (B2 _ _ _ _ H') as (v2 & H2 & N2). eauto.
Qed.
Definition kp {A} (m : im A) : Prop := forall s, keeps s (fst (m s)).
Lemma kp_bind : forall A B (m : im A) (k : A -> im B), kp m -> (forall a, kp (k a)) -> kp (bind P m k).
Proof. intros A B m k Hm Hk s. unfold bind. specialize (Hm s). destruct (m s) as [s1 r]. destruct r as [a|e]; [|exact Hm]. eapply keeps_trans; [exact Hm|apply Hk]. Qed.
Lemma kp_try : forall A (m h : im A), kp m -> kp h -> kp (try_ P m h).
Proof. intros A m h Hm Hh s. unfold try_. specialize (Hm s). destruct (m s) as [s1 r]. destruct r as [a|e]; [exact Hm|]. destruct e; try exact Hm. eapply keeps_trans; [exact Hm|apply Hh]. Qed.
Lemma kp_ret : forall A (a : A), kp (ret P a). Proof. intros A a s. apply keeps_refl. Qed.
Lemma kp_raise : forall A e, kp (@raise P A e). Proof. intros A a s. apply keeps_refl. Qed.
Lemma kp_lift : forall A (r : res A), kp (lift P r). Proof. intros A r s. apply keeps_refl. Qed.
Lemma kp_get : forall A (f : st -> res A), kp (get P f). Proof. intros A f s. apply keeps_refl. Qed.
Lemma kp_modify : forall f, (forall s, keeps s (f s)) -> kp (modify P f). Proof. intros f H s. apply H. Qed.
Ltac kp := repeat first [apply kp_bind; [|intros ?] | apply kp_try | apply kp_ret | apply kp_raise | apply kp_lift | apply kp_get].

Lemma keeps_ids : forall s u v, (forall w, sget (ids P s) u = Some w -> w <> None -> v <> None) -> keeps s (set_ids P (sset (ids P s) u v) s).
Proof.
  intros s u v H. split; [|split; [cbn; eauto|]; split; [cbn; auto|cbn; lia]]. intros u' w G. cbn. rewrite sget_set. destruct (zlist_eqb u u') eqn:E; [|eauto]. apply zlist_eqb_eq in E. subst. eauto.
Qed.
Lemma keeps_identity : forall i s, keeps s (addIdentity P i s).
Proof. intros i s. unfold addIdentity, doesIdentityExist. destruct (sin _ _) eqn:E; [apply keeps_refl|]. apply keeps_ids. intros w G. apply sin_none in E. congruence. Qed.
Lemma kp_addKey : forall k t b, kp (addKey P k t b).
Proof.
  intros k t b s. unfold addKey. destruct (zlen k =? 0); [apply keeps_refl|]. destruct (doesKeyExist P k s) eqn:E; [apply keeps_refl|]. destruct (n_getSubName _ _ _) as [i|e]; [|apply keeps_refl]. cbn [fst].
  eapply keeps_trans; [apply (keeps_identity i)|]. assert (E' : sget (keys P (addIdentity P i s)) (uri k) = None) by (apply sin_none; unfold addIdentity; destruct (doesIdentityExist _ _ _); exact E).
  split; [cbn; eauto|]. split; [|split; [cbn; auto|cbn; lia]]. intros u t' b' c G. cbn. rewrite sget_set. destruct (zlist_eqb (uri k) u) eqn:Eu; [|eauto]. apply zlist_eqb_eq in Eu. subst. congruence.
Qed.
Lemma kp_addCert : forall c, kp (st_addCertificate P c).
Proof.
  intro c. unfold st_addCertificate. apply kp_bind; [apply kp_lift|intro k]. apply kp_bind; [apply kp_addKey|intros _]. intro s. unfold bind, get. destruct (doesCertificateExist _ _ s) eqn:E; [apply keeps_refl|].
  unfold lift. destruct (encodeData _); [|apply keeps_refl]. unfold modify. cbn [fst]. split; [cbn; eauto|]. split; [cbn; eauto|]. split; [|cbn; lia].
  intros u w G. cbn. rewrite sget_set. destruct (zlist_eqb _ u) eqn:Eu; [|exact G]. apply zlist_eqb_eq in Eu. subst. apply sin_none in E. congruence.
Qed.
Lemma kp_setKey : forall k check, kp (setDefaultKeyNameForIdentity P k check).
Proof.
  intros k check. unfold setDefaultKeyNameForIdentity. apply kp_bind; [apply kp_lift|intro i]. destruct (_ && _); [apply kp_raise|]. apply kp_modify. intro s. destruct (doesIdentityExist _ _ _); [|apply keeps_refl]. apply keeps_ids. discriminate.
Qed.
Lemma kp_setCert : forall c, kp (setDefaultCertificateForKey P c).
Proof.
  intro c. unfold setDefaultCertificateForKey. kp. destruct (negb _); [apply kp_raise|]. apply kp_modify. intro s. unfold setDefaultCertificateNameForKey. destruct (sget (keys P s) _) as [[[t b] c']|] eqn:E; [|apply keeps_refl].
  split; [cbn; eauto|]. split; [|split; [cbn; auto|cbn; lia]]. intros u t' b' c2 G. cbn. rewrite sget_set. destruct (zlist_eqb _ u) eqn:Eu; [|eauto]. apply zlist_eqb_eq in Eu. subst. rewrite E in G. injection G as <- <- <-. eexists. split; [reflexivity|discriminate].
Qed.
Lemma keeps_other : forall s s', ids P s' = ids P s -> keys P s' = keys P s -> certs P s' = certs P s -> lastTs P s <= lastTs P s' -> keeps s s'.
Proof. intros s s' A B C D. unfold keeps. rewrite A, B, C. split; [eauto|]. split; [eauto|]. split; [auto|exact D]. Qed.
Lemma kp_newName : forall i ksk now, kp (getNewKeyName P i ksk now).
Proof.
  intros i ksk now s. unfold getNewKeyName, bind, get, modify. cbv beta. match goal with |- context [set_last P ?t s] => set (T := t) end.
  assert (L : lastTs P s <= T) by (subst T; cbv zeta; destruct (_ <=? _) eqn:E; lia). destruct (doesKeyExist _ _ _); apply keeps_other; auto.
Qed.
Lemma kp_tpm : forall k t size r, kp (tpm_generate P gen derive load_public floor40 k t size r).
Proof. intros. unfold tpm_generate. kp; (apply kp_modify; intro; apply keeps_other; auto; cbn; lia). Qed.
Lemma kp_pair : forall k t a b, kp (setKeyPair P load_pkcs8 load_public floor40 k t a b).
Proof. intros. unfold setKeyPair. kp; (apply kp_modify; intro; apply keeps_other; auto; cbn; lia). Qed.
Lemma kp_generate : forall i ksk t size r now, kp (generateKeyPair P gen derive load_public floor40 i ksk t size r now).
Proof. intros. unfold generateKeyPair. apply kp_bind; [apply kp_newName|intro]. apply kp_bind; [apply kp_tpm|intro]. kp. apply kp_addKey. Qed.
Ltac kp2 := repeat first [apply kp_setKey | apply kp_setCert | apply kp_addCert | apply kp_addKey | apply kp_generate | apply kp_newName | apply kp_tpm | apply kp_bind; [|intros ?] | apply kp_try | apply kp_ret | apply kp_raise | apply kp_lift | apply kp_get].
Lemma kp_idDefault : forall c, kp (addCertificateAsIdentityDefault P c).
Proof. intro c. unfold addCertificateAsIdentityDefault. kp2. Qed.
Lemma kp_create : forall i t size r now now2, kp (createIdentityAndCertificate P gen derive psign load_public floor40 i t size r now now2).
Proof.
  intros. unfold createIdentityAndCertificate. apply kp_bind; [apply kp_modify, keeps_identity|intro]. apply kp_bind; [kp|intro o]. apply kp_bind; [destruct o; [apply kp_ret|]|intro k].
  - kp2.
  - apply kp_bind; [kp|intros [c|]]; [apply kp_ret|]. apply kp_bind; [apply kp_get|intro]. apply kp_bind; [apply kp_idDefault|intro; apply kp_ret].
Qed.
Lemma kp_perform : forall o, kp (perform o).
Proof.
  intros []; cbn [IdmModel.perform]; unfold unit_of, name_of; (apply kp_bind; [|intro; apply kp_ret]).
  - apply kp_modify, keeps_identity.
  - apply kp_create.
  - unfold generateKeyPairAs. apply kp_bind; [apply kp_generate|intro]. destruct asDefault; kp2.
  - apply kp_pair.
  - apply kp_modify. intro s. unfold setDefaultIdentity. destruct (doesIdentityExist _ _ _); apply keeps_other; auto; cbn; lia.
  - apply kp_setKey.
  - apply kp_setCert.
  - apply kp_addCert.
  - apply kp_idDefault.
  - unfold addCertificateAsDefault. apply kp_bind; [apply kp_addCert|intro; apply kp_setCert].
  - intro s. unfold deleteIdentity. destruct (getDefaultIdentity P s) as [n|[]]; try (destruct (n_equals n i)); apply keeps_refl.
Qed.
Lemma run_keeps : forall h s, keeps s (run h s).
Proof. induction h as [|o h IH]; intro s; [apply keeps_refl|]. cbn [IdmModel.run]. eapply keeps_trans; [apply (kp_perform o)|apply IH]. Qed.
End Proofs.
