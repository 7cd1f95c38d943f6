(** * The private key storage of a program that makes all of its keys *)
From Verif Require Import Base BaseLemmas NameModel NameSpec NameProofs UriModel UriSpec BlobModel DictModel DictProofs DerModel PkcsModel WireModel IcertModel IcertSpec IcertProps IdmModel IdmSpec IdmProofs IdmProofs2 IdmProofs3.
Local Open Scope res_scope.

Section Proofs.
Context {P : Type}.
Variable gen : Z -> Z -> Z -> res P.
Variable derive : P -> res bytes.
Variable psign : P -> Z -> bytes -> res bytes.
Variable load_pkcs8 : bytes -> Z -> res P.
Variable load_public : bytes -> res unit.
Variable floor40 : Z -> Z.
Notation st := (st P). Notation im := (im P).
Notation perform := (perform P gen derive psign load_pkcs8 load_public floor40).
Notation run := (run P gen derive psign load_pkcs8 load_public floor40).
Notation sget := (dget zlist_eqb). Notation sset := (dset zlist_eqb). Notation sin := (din zlist_eqb).

(** A key of the private key storage is in the identity storage, which has the public key of its private key *)
Definition owns (s : st) : Prop := forall u x, sget (pubs P s) u = Some x -> exists p t b c, sget (privs P s) u = Some p /\ sget (keys P s) u = Some (t, b, c) /\ derive p = Ok b /\ pk_new load_public floor40 b = Ok x.
Definition ow {A} (m : im A) : Prop := forall s, owns s -> owns (fst (m s)).
Definition same (s s' : st) : Prop := pubs P s' = pubs P s /\ privs P s' = privs P s.
Lemma owns_same : forall s s', keeps s s' -> same s s' -> owns s -> owns s'.
Proof.
  intros s s' (_ & K & _) [E1 E2] O u x H. rewrite E1 in H. destruct (O u x H) as (p & t & b & c & A & B & C & D). destruct (K _ _ _ _ B) as (c' & B' & _). exists p, t, b, c'. rewrite E2. auto.
Qed.
Lemma ow_bind : forall A B (m : im A) (k : A -> im B), ow m -> (forall a, ow (k a)) -> ow (bind P m k).
Proof. intros A B m k Hm Hk s O. unfold bind. specialize (Hm s O). destruct (m s) as [s1 r]. destruct r as [a|e]; [|exact Hm]. apply Hk. exact Hm. Qed.
Lemma ow_try : forall A (m h : im A), ow m -> ow h -> ow (try_ P m h).
Proof. intros A m h Hm Hh s O. unfold try_. specialize (Hm s O). destruct (m s) as [s1 r]. destruct r as [a|e]; [exact Hm|]. destruct e; try exact Hm. apply Hh. exact Hm. Qed.
Lemma ow_same : forall A (m : im A), kp m -> (forall s, same s (fst (m s))) -> ow m.
Proof. intros A m K H s O. exact (owns_same _ _ (K s) (H s) O). Qed.
Lemma ow_get : forall A (f : st -> res A), ow (get P f). Proof. intros A f s O. exact O. Qed.
Lemma ow_ret : forall A (a : A), ow (ret P a). Proof. intros A a s O. exact O. Qed.
Lemma ow_lift : forall A (r : res A), ow (lift P r). Proof. intros A r s O. exact O. Qed.
Lemma ow_raise : forall A e, ow (@raise P A e). Proof. intros A e s O. exact O. Qed.
Lemma same_identity : forall i s, same s (addIdentity P i s).
Proof. intros. unfold addIdentity. destruct (doesIdentityExist P i s); split; reflexivity. Qed.
Lemma ow_addKey : forall k t b, ow (addKey P k t b).
Proof.
  intros. apply ow_same; [apply kp_addKey|]. intro s. unfold addKey. destruct (zlen k =? 0); [split; reflexivity|]. destruct (doesKeyExist P k s); [split; reflexivity|]. destruct (n_getSubName _ _ _) as [i|e]; [|split; reflexivity]. exact (same_identity i s).
Qed.
Lemma ow_setKey : forall k check, ow (setDefaultKeyNameForIdentity P k check).
Proof.
  intros. apply ow_same; [apply kp_setKey|]. intro s. unfold setDefaultKeyNameForIdentity, bind, lift, modify, raise. destruct (n_getPrefix _ _) as [i|e]; [|split; reflexivity]. destruct (_ && _); [split; reflexivity|]. cbn [fst]. destruct (doesIdentityExist P i s); split; reflexivity.
Qed.
Lemma ow_setCert : forall c, ow (setDefaultCertificateForKey P c).
Proof.
  intro c. apply ow_same; [apply kp_setCert|]. intro s. unfold setDefaultCertificateForKey, bind, lift, modify, raise, get. destruct (ic_publicKeyName c) as [k|]; [|split; reflexivity]. destruct (negb _); [split; reflexivity|]. cbn [fst]. unfold setDefaultCertificateNameForKey. destruct (sget (keys P s) (uri k)) as [[[t b] n]|]; split; reflexivity.
Qed.
Lemma ow_addCert : forall c, ow (st_addCertificate P c).
Proof.
  intro c. unfold st_addCertificate. apply ow_bind; [apply ow_lift|intro k]. apply ow_bind; [apply ow_addKey|intros _]. apply ow_bind; [apply ow_get|intro e]. destruct e; [apply ow_ret|]. apply ow_bind; [apply ow_lift|intro w]. intros s O. intros u x H. cbn in *. exact (O u x H).
Qed.
Lemma ow_idDefault : forall c, ow (addCertificateAsIdentityDefault P c).
Proof. intro c. unfold addCertificateAsIdentityDefault. apply ow_bind; [apply ow_addCert|intro]. apply ow_bind; [apply ow_lift|intro]. apply ow_bind; [apply ow_setKey|intro]. apply ow_setCert. Qed.
Lemma ow_generate : forall i ksk t size r now, ow (generateKeyPair P gen derive load_public floor40 i ksk t size r now).
Proof.
  intros i ksk t size r now s O. unfold generateKeyPair. rewrite bind_eq.
  assert (G : exists s1 r1, getNewKeyName P i ksk now s = (s1, r1) /\ owns s1 /\ forall k, r1 = Ok k -> sget (keys P s1) (uri k) = None /\ (zlen k =? 0) = false).
  { unfold getNewKeyName, bind, get, modify, raise, ret. cbv beta zeta iota. match goal with |- context [doesKeyExist P ?k ?s1] => destruct (doesKeyExist P k s1) eqn:E end; do 2 eexists; (split; [reflexivity|]); (split; [exact O|]); intros k [= <-]; split; [apply sin_none; exact E|rewrite zlen_app, zlen_cons, zlen_nil; pose proof (zlen_nonneg _ i); lia]. }
  destruct G as (s1 & r1 & -> & O1 & N). destruct r1 as [k|e]; [|exact O1]. destruct (N k eq_refl) as [N1 N2]. clear N.
  assert (Np : sget (pubs P s1) (uri k) = None) by (destruct (sget (pubs P s1) (uri k)) as [x|] eqn:E; [|reflexivity]; destruct (O1 _ _ E) as (p & t' & b & c & _ & X & _); congruence).
  unfold tpm_generate, bind, lift, modify, get, tpm_getPublicKey, ret. destruct (gen t size r) as [p|e]; [|exact O1]. destruct (derive p) as [b|e] eqn:Ed; [|exact O1]. cbv beta iota.
  assert (O2 : owns (set_privs P (sset (privs P s1) (uri k) p) s1)).
  { intros u x H. cbn in *. destruct (O1 u x H) as (p' & t' & b' & c & A & B). rewrite sget_set. destruct (zlist_eqb (uri k) u) eqn:E; [apply zlist_eqb_eq in E; congruence|]. exists p', t', b', c. auto. }
  destruct (pk_new load_public floor40 b) as [x|e] eqn:Ex; [|exact O2]. cbn [pubs set_pubs]. rewrite sget_same. cbv beta iota. unfold addKey. rewrite N2. match goal with |- context [doesKeyExist P k ?a] => replace (doesKeyExist P k a) with false by (symmetry; apply sin_none; exact N1) end.
  assert (Zk : zlen k <> 0) by lia. rewrite (sub_last k Zk). cbn [fst]. pose proof (pk_new_der load_public floor40 b x Ex) as Eb. rewrite Eb.
  match goal with |- context [addIdentity P ?i0 ?s0] => destruct (same_identity i0 s0) as [E1 E2]; assert (E3 : keys P (addIdentity P i0 s0) = keys P s0) by (unfold addIdentity; destruct (doesIdentityExist P i0 s0); reflexivity); set (s4 := addIdentity P i0 s0) in * end.
  intros u y H. change (sget (pubs P s4) u = Some y) in H. change (exists p0 t0 b0 c, sget (privs P s4) u = Some p0 /\ sget (sset (keys P s4) (uri k) (t, b, None)) u = Some (t0, b0, c) /\ derive p0 = Ok b0 /\ pk_new load_public floor40 b0 = Ok y).
  rewrite E1 in H. rewrite E2, E3. cbn [pubs privs keys set_pubs set_privs] in *. rewrite sget_set in H. rewrite !sget_set. destruct (zlist_eqb (uri k) u) eqn:E; [injection H as <-; exists p, t, b, None; auto|]. destruct (O1 u y H) as (p' & t' & b' & c & A & B). exists p', t', b', c. auto.
Qed.
Lemma ow_create : forall i t size r now now2, ow (createIdentityAndCertificate P gen derive psign load_public floor40 i t size r now now2).
Proof.
  intros. unfold createIdentityAndCertificate. apply ow_bind; [|intro]. { apply ow_same; [apply kp_modify, keeps_identity|]. intro s. exact (same_identity i s). }
  apply ow_bind; [|intro o]. { apply ow_try; [apply ow_bind; [apply ow_get|intro]; apply ow_bind; [apply ow_get|intro]; apply ow_ret|apply ow_ret]. }
  apply ow_bind; [destruct o; [apply ow_ret|]|intro k]. { apply ow_bind; [apply ow_generate|intro]. apply ow_bind; [apply ow_setKey|intro]. apply ow_ret. }
  apply ow_bind; [|intros [c|]]. { apply ow_try; [apply ow_bind; [apply ow_get|intro]; apply ow_ret|apply ow_ret]. } { apply ow_ret. }
  apply ow_bind; [apply ow_get|intro]. apply ow_bind; [apply ow_idDefault|intro; apply ow_ret].
Qed.
Definition not_imported (o : op) : Prop := match o with OSetKeyPair _ _ _ _ => False | _ => True end.
Lemma ow_perform : forall o, not_imported o -> ow (perform o).
Proof.
  intros [] N; cbn [IdmModel.perform]; unfold unit_of, name_of; (apply ow_bind; [|intro; apply ow_ret]).
  - apply ow_same; [apply kp_modify, keeps_identity|]. intro s. exact (same_identity i s).
  - apply ow_create.
  - unfold generateKeyPairAs. apply ow_bind; [apply ow_generate|intro]. destruct asDefault; [apply ow_bind; [apply ow_setKey|intro; apply ow_ret]|apply ow_ret].
  - destruct N.
  - intros s O. unfold modify, setDefaultIdentity. cbn [fst]. destruct (doesIdentityExist P i s); exact O.
  - apply ow_setKey.
  - apply ow_setCert.
  - apply ow_addCert.
  - apply ow_idDefault.
  - unfold addCertificateAsDefault. apply ow_bind; [apply ow_addCert|intro; apply ow_setCert].
  - intros s O. unfold deleteIdentity. destruct (getDefaultIdentity P s) as [n|[]]; try (destruct (n_equals n i)); exact O.
Qed.
Lemma run_owns : forall h s, Forall not_imported h -> owns s -> owns (run h s).
Proof. induction h as [|o h IH]; intros s F O; [exact O|]. inversion F; subst. cbn [IdmModel.run]. apply IH; [assumption|]. apply ow_perform; assumption. Qed.
Lemma owns_init : forall start, owns (st_init P start).
Proof. intros start u x H. discriminate H. Qed.
End Proofs.
