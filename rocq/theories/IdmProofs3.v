(** * Creating an identity; the invariant of the histories *)
From Verif Require MatchProps.
From Verif Require Import Base BaseLemmas NameModel NameSpec NameProofs UriModel UriSpec UriProofs UriProps BlobModel DictModel DictProofs DerModel PkcsModel WireModel IcertModel IcertSpec IcertProps IdmModel IdmSpec IdmProofs IdmProofs2.
Local Open Scope res_scope.

Lemma split_last_comp : forall k : name, k <> [] -> exists l, k = removelast k ++ [l].
Proof. intros k H. destruct (exists_last H) as (p & l & ->). exists l. rewrite removelast_last. reflexivity. Qed.
(** The name of the self-signed certificate *)
Definition self_name (i : name) (l v : comp) : name := i ++ [c_generic key_text; l; c_generic id_cert; v].
Lemma word_key : word [75; 69; 89] (c_generic key_text). Proof. split; reflexivity. Qed.
Lemma word_cert : word [73; 68; 45; 67; 69; 82; 84] (c_generic id_cert). Proof. split; reflexivity. Qed.
Lemma self_key_name : forall i l r, no_key_word i -> key_name (self_name i l (c_generic (253 :: r))) (i ++ [l]).
Proof.
  intros i l r H. exists i, (c_generic key_text), [l], (c_generic id_cert), [c_generic (253 :: r)]. split; [reflexivity|]. split; [apply word_key|]. split; [apply word_cert|]. split; [exact H|]. split; [|reflexivity]. constructor; [|constructor]. intros [_ X]. discriminate X.
Qed.
Lemma key_name_fun : forall n p q, key_name n p -> key_name n q -> p = q.
Proof. intros n p q A B. pose proof (proj2 (proj1 (C89_key_name n p)) A) as A'. pose proof (proj2 (proj1 (C89_key_name n q)) B) as B'. congruence. Qed.

Section Proofs.
Context {P : Type}.
Variable gen : Z -> Z -> Z -> res P.
Variable derive : P -> res bytes.
Variable psign : P -> Z -> bytes -> res bytes.
Variable load_pkcs8 : bytes -> Z -> res P.
Variable load_public : bytes -> res unit.
Variable floor40 : Z -> Z.
Notation st := (st P). Notation im := (im P).
Notation perform := (perform P gen derive psign load_pkcs8 load_public floor40).
Notation run := (run P gen derive psign load_pkcs8 load_public floor40).
Notation selfSign := (selfSign P psign load_public floor40).
Notation create := (createIdentityAndCertificate P gen derive psign load_public floor40).
Notation getPublicKey := (getPublicKey P load_public floor40).
Notation sget := (dget zlist_eqb). Notation sset := (dset zlist_eqb). Notation sin := (din zlist_eqb).
Variable strict : bool.
Notation inv := (inv strict).

Lemma selfSign_named : forall k now s x, plain k -> 0 <= now -> selfSign k now s = Ok x ->
  exists l v r, k = removelast k ++ [l] /\ c_fromVersion now = Ok v /\ v = c_generic (253 :: r) /\ d_name (ic_data x) = self_name (removelast k) l v /\ cert_named x.
Proof.
  intros k now s x Hk Hn H. unfold IdmModel.selfSign in H. apply rbind_ok in H. destruct H as (c & Ec & H). apply rbind_ok in H. destruct H as (d & Ed & H). injection H as <-.
  unfold certificateForKey in Ec. apply rbind_ok in Ec. destruct Ec as (b & Eb & Ec). apply rbind_ok in Ec. destruct Ec as (y & _ & Ec). rewrite prefix_last in Ec. cbn [rbind] in Ec. apply rbind_ok in Ec. destruct Ec as (l & El & Ec). apply rbind_ok in Ec. destruct Ec as (v & Ev & Ec). apply rbind_ok in Ec. destruct Ec as (c1 & E1 & Ec). apply rbind_ok in Ec. destruct Ec as (text & _ & Ec).
  assert (Nk : k <> []) by (intros ->; discriminate Eb). destruct (split_last_comp k Nk) as (l' & Ek). rewrite Ek in El at 1. rewrite MatchProps.last_getitem in El. injection El as ->. destruct (version_plain now v Hn Ev) as (Hv & r & Er). apply set_name_ok in E1. destruct E1 as (p & -> & Kn). apply encode_frame in Ec. destruct Ec as (Ep & En & _). cbn in Ep, En.
  unfold signData in Ed. apply rbind_ok in Ed. destruct Ed as (sg & _ & Ed). apply rbind_ok in Ed. destruct Ed as (e & _ & Ed). apply rbind_ok in Ed. destruct Ed as (k' & _ & Ed). apply rbind_ok in Ed. destruct Ed as (bits & _ & Ed). cbv zeta in Ed. apply rbind_ok in Ed. destruct Ed as (_ & _ & Ed). injection Ed as <-.
  exists l, v, r. split; [exact Ek|]. split; [exact Ev|]. split; [exact Er|]. split; [exact En|]. split; cbn [ic_setData ic_data d_name].
  - rewrite En. rewrite Ek in Hk. apply Forall_app in Hk. destruct Hk as [Hi Hl]. apply Forall_app. split; [exact Hi|]. inversion Hl; subst. constructor; [apply plain_generic; apply bytes_okb_ok; reflexivity|]. constructor; [assumption|]. constructor; [apply plain_generic; apply bytes_okb_ok; reflexivity|]. constructor; [exact Hv|constructor].
  - exists p. split; [exact Ep|]. rewrite En. exact Kn.
Qed.
Lemma setKey_eq : forall k s, setDefaultKeyNameForIdentity P k [] s = (if doesIdentityExist P (removelast k) s then set_ids P (sset (ids P s) (uri (removelast k)) (Some k)) s else s, Ok tt).
Proof. intros k s. unfold setDefaultKeyNameForIdentity. rewrite prefix_last. reflexivity. Qed.
Lemma kept_public : forall s s' k x, keeps s s' -> getPublicKey k s = Ok x -> getPublicKey k s' = Ok x.
Proof.
  intros s s' k x (_ & K & _) H. unfold IdmModel.getPublicKey, getKey in *. destruct (zlen k =? 0); [discriminate H|]. destruct (sget (keys P s) (uri k)) as [[[t b] c]|] eqn:E; [|discriminate H]. destruct (K _ _ _ _ E) as (c' & -> & _). exact H.
Qed.
Lemma keeps_addIdentity_ids : forall i s, ids P (addIdentity P i s) = (if doesIdentityExist P i s then ids P s else sset (ids P s) (uri i) None).
Proof. intros. unfold addIdentity. destruct (doesIdentityExist P i s); reflexivity. Qed.
Definition only_at (u : str) (s s' : st) : Prop := forall u', u' <> u -> sget (ids P s') u' = sget (ids P s) u'.
Lemma only_refl : forall u s, only_at u s s. Proof. intros u s u' _. reflexivity. Qed.
Lemma only_trans : forall u a b c, only_at u a b -> only_at u b c -> only_at u a c.
Proof. intros u a b c A B u' N. rewrite B, A by exact N. reflexivity. Qed.
Lemma only_set : forall u v s s', ids P s' = sset (ids P s) u v -> only_at u s s'.
Proof. intros u v s s' E u' N. rewrite E, sget_set. destruct (zlist_eqb u u') eqn:X; [|reflexivity]. apply zlist_eqb_eq in X. congruence. Qed.
Lemma only_same : forall u s s', ids P s' = ids P s -> only_at u s s'.
Proof. intros u s s' E u' _. rewrite E. reflexivity. Qed.
Lemma only_identity : forall i s, only_at (uri i) s (addIdentity P i s).
Proof. intros i s. unfold addIdentity. destruct (doesIdentityExist P i s); [apply only_refl|eapply only_set; reflexivity]. Qed.

(** The key that is used *)
Definition choose (i : name) (t size r now : Z) : im name :=
  bind P (try_ P (bind P (get P (getDefaultKeyNameForIdentity P i)) (fun k => bind P (get P (getPublicKey k)) (fun x => ret P (match pk_type x with Some t' => if t' =? t then Some k else None | None => None end)))) (ret P None))
    (fun o => match o with Some k => ret P k | None => bind P (generateKeyPair P gen derive load_public floor40 i true t size r now) (fun k => bind P (setDefaultKeyNameForIdentity P k []) (fun _ => ret P k)) end).
Definition make (i : name) (t size r now : Z) : im name := bind P (generateKeyPair P gen derive load_public floor40 i true t size r now) (fun k => bind P (setDefaultKeyNameForIdentity P k []) (fun _ => ret P k)).
Lemma choose_eq : forall i t size r now s, choose i t size r now s =
  match getDefaultKeyNameForIdentity P i s with
  | Err _ => make i t size r now s
  | Ok k => match getPublicKey k s with
            | Err SecurityException => make i t size r now s
            | Err e => (s, Err e)
            | Ok x => if match pk_type x with Some t' => t' =? t | None => false end then (s, Ok k) else make i t size r now s
            end
  end.
Proof.
  intros. unfold choose. rewrite bind_eq. fold (make i t size r now). unfold try_. rewrite bind_eq. unfold get, getDefaultKeyNameForIdentity. destruct (sget (ids P s) (uri i)) as [[k|]|]; try reflexivity. rewrite bind_eq. destruct (getPublicKey k s) as [x|[]]; try reflexivity. unfold ret. destruct (pk_type x) as [t'|]; [destruct (t' =? t)|]; reflexivity.
Qed.
Lemma choose_ok : forall i t size r now s, inv s -> plain i -> 0 <= now -> sget (ids P s) (uri i) <> None -> let z := choose i t size r now s in
  inv (fst z) /\ keeps s (fst z) /\ only_at (uri i) s (fst z) /\ dflt P (fst z) = dflt P s /\ forall k, snd z = Ok k -> sget (ids P (fst z)) (uri i) = Some (Some k) /\ plain k /\ (exists l, k = i ++ [l]) /\
    ((fst z = s /\ exists x, getPublicKey k s = Ok x /\ pk_type x = Some t) \/
     exists p b y, gen t size r = Ok p /\ derive p = Ok b /\ pk_new load_public floor40 b = Ok y /\ getPublicKey k (fst z) = Ok y /\ sget (keys P (fst z)) (uri k) = Some (t, b, None) /\ sget (pubs P (fst z)) (uri k) = Some y /\ sget (privs P (fst z)) (uri k) = Some p /\ certs P (fst z) = certs P s /\
       stamped k i true (Z.max (now / 1000) (lastTs P s + 1)) /\ sget (keys P s) (uri k) = None).
Proof.
  intros i t size r now s I0 Hi Hn M z. subst z.
  assert (G : let z := make i t size r now s in
    inv (fst z) /\ keeps s (fst z) /\ only_at (uri i) s (fst z) /\ dflt P (fst z) = dflt P s /\ forall k, snd z = Ok k -> sget (ids P (fst z)) (uri i) = Some (Some k) /\ plain k /\ (exists l, k = i ++ [l]) /\
    ((fst z = s /\ exists x, getPublicKey k s = Ok x /\ pk_type x = Some t) \/
     exists p b y, gen t size r = Ok p /\ derive p = Ok b /\ pk_new load_public floor40 b = Ok y /\ getPublicKey k (fst z) = Ok y /\ sget (keys P (fst z)) (uri k) = Some (t, b, None) /\ sget (pubs P (fst z)) (uri k) = Some y /\ sget (privs P (fst z)) (uri k) = Some p /\ certs P (fst z) = certs P s /\
       stamped k i true (Z.max (now / 1000) (lastTs P s + 1)) /\ sget (keys P s) (uri k) = None)).
  { pose proof (generate_ok gen derive load_public floor40 strict i true t size r now s I0 Hi Hn) as X. pose proof (kp_generate gen derive load_public floor40 i true t size r now s) as K1. cbv zeta in *. unfold make. rewrite !bind_eq. destruct (generateKeyPair P gen derive load_public floor40 i true t size r now s) as [s1 [k|e]]; cbn [fst snd] in *.
    2:{ destruct X as (I1 & E1 & D1 & _ & _). split; [exact I1|]. split; [exact K1|]. split; [now apply only_same|]. split; [exact D1|]. intros k Y. discriminate Y. }
    destruct X as (I1 & E1 & D1 & _ & X). destruct (X k eq_refl) as (St & Hk & N & p & b & y & Eg & Ed & Ey & Ek & Ep & Er & Ec). clear X. rewrite bind_eq, setKey_eq. cbv iota. cbn [ret fst snd]. assert (Rk : removelast k = i) by (rewrite St; apply removelast_last). rewrite Rk.
    assert (Ex : doesIdentityExist P i s1 = true) by (apply sin_some; pose proof (kept_id _ _ _ K1 M) as Y; destruct (sget (ids P s1) (uri i)) as [v|]; [eauto|congruence]). rewrite Ex.
    split; [apply inv_set_ids; [exact I1|exact Hi|intros k' [= <-]; auto]|]. split; [eapply keeps_trans; [exact K1|apply keeps_ids; discriminate]|].
    split; [eapply only_trans; [|eapply only_set; reflexivity]; eapply only_trans; [apply only_identity|now apply only_same]|]. split; [exact D1|]. intros k' [= <-]. split; [cbn; apply sget_same|]. split; [exact Hk|]. split; [eexists; exact St|]. right. exists p, b, y. split; [exact Eg|]. split; [exact Ed|]. split; [exact Ey|].
    assert (Gk : sget (keys P s1) (uri k) = Some (t, b, None)) by (rewrite Ek; apply sget_same).
    split; [|split; [exact Gk|]; split; [exact Ep|]; split; [exact Er|]; split; [exact Ec|]; split; [exact St|exact N]].
    unfold IdmModel.getPublicKey, getKey. cbn [keys set_ids]. rewrite Gk. replace (zlen k =? 0) with false; [exact Ey|]. rewrite St, zlen_app, zlen_cons, zlen_nil. pose proof (zlen_nonneg _ i). lia. }
  rewrite choose_eq. destruct (getDefaultKeyNameForIdentity P i s) as [k|e] eqn:Ed; [|exact G].
  destruct (getPublicKey k s) as [x|e] eqn:Ep.
  2:{ assert (B : forall e', let z := (s, @Err name e') in inv (fst z) /\ keeps s (fst z) /\ only_at (uri i) s (fst z) /\ dflt P (fst z) = dflt P s /\ forall k0, snd z = Ok k0 -> sget (ids P (fst z)) (uri i) = Some (Some k0) /\ plain k0 /\ (exists l, k0 = i ++ [l]) /\
    ((fst z = s /\ exists x, getPublicKey k0 s = Ok x /\ pk_type x = Some t) \/
     exists p b y, gen t size r = Ok p /\ derive p = Ok b /\ pk_new load_public floor40 b = Ok y /\ getPublicKey k0 (fst z) = Ok y /\ sget (keys P (fst z)) (uri k0) = Some (t, b, None) /\ sget (pubs P (fst z)) (uri k0) = Some y /\ sget (privs P (fst z)) (uri k0) = Some p /\ certs P (fst z) = certs P s /\
       stamped k0 i true (Z.max (now / 1000) (lastTs P s + 1)) /\ sget (keys P s) (uri k0) = None)).
      { intros e' z. subst z. cbn [fst snd]. split; [exact I0|]. split; [apply keeps_refl|]. split; [apply only_refl|]. split; [reflexivity|]. intros k' Y. discriminate Y. }
      destruct e; try exact G; apply B. }
  destruct (pk_type x) as [t'|] eqn:Et; [|exact G]. destruct (t' =? t) eqn:E; [|exact G]. apply Z.eqb_eq in E. subst t'. cbn [fst snd]. split; [exact I0|]. split; [apply keeps_refl|]. split; [apply only_refl|]. split; [reflexivity|].
  intros k' [= <-]. unfold getDefaultKeyNameForIdentity in Ed. destruct (sget (ids P s) (uri i)) as [[k1|]|] eqn:Ei; try discriminate Ed. injection Ed as ->. split; [reflexivity|]. destruct (inv_ids _ _ I0 _ _ Ei) as (i' & Hi' & Eu & F). apply uri_inj in Eu; [|exact Hi|exact Hi']. subst i'. destruct (F k eq_refl) as [Hk Er]. split; [exact Hk|].
  assert (Nk : k <> []) by (intros ->; discriminate Ep). destruct (split_last_comp k Nk) as (l & El). rewrite Er in El. split; [eauto|]. left. split; [reflexivity|]. eauto.
Qed.

Lemma create_eq : forall i t size r now now2 s, create i t size r now now2 s =
  bind P (choose i t size r now) (fun k => bind P (try_ P (bind P (get P (getDefaultCertificateNameForKey P k)) (fun c => ret P (Some c))) (ret P None))
    (fun c => match c with Some n => ret P n | None => bind P (get P (selfSign k now2)) (fun x => bind P (addCertificateAsIdentityDefault P x) (fun _ => ret P (d_name (ic_data x)))) end)) (addIdentity P i s).
Proof.
  intros. unfold IdmModel.createIdentityAndCertificate. rewrite bind_eq. unfold modify. unfold choose. rewrite !bind_eq. destruct (try_ P _ _ (addIdentity P i s)) as [s1 [o|e]]; [|reflexivity]. rewrite bind_eq. reflexivity.
Qed.
Lemma certTry_eq : forall k s, try_ P (bind P (get P (getDefaultCertificateNameForKey P k)) (fun c => ret P (Some c))) (ret P None) s = (s, Ok (match sget (keys P s) (uri k) with Some (_, _, c) => c | None => None end)).
Proof. intros. unfold try_, bind, get, ret, getDefaultCertificateNameForKey. destruct (sget (keys P s) (uri k)) as [[[t b] [c|]]|]; reflexivity. Qed.

Lemma idDefault_only : forall c p s, ic_publicKeyName c = Some p -> (forall s', keeps s s' -> True) -> only_at (uri (removelast p)) s (fst (addCertificateAsIdentityDefault P c s)) /\ dflt P (fst (addCertificateAsIdentityDefault P c s)) = dflt P s.
Proof.
  intros c p s Ep _. unfold addCertificateAsIdentityDefault. rewrite bind_eq.
  assert (A : only_at (uri (removelast p)) s (fst (st_addCertificate P c s)) /\ dflt P (fst (st_addCertificate P c s)) = dflt P s).
  { unfold st_addCertificate. rewrite Ep, bind_eq. cbv beta iota delta [lift]. rewrite bind_eq. match goal with |- context [addKey P p ?t ?b s] => set (tt' := t); set (bb := b) end.
    assert (A : only_at (uri (removelast p)) s (fst (addKey P p tt' bb s)) /\ dflt P (fst (addKey P p tt' bb s)) = dflt P s).
    { unfold addKey. destruct (zlen p =? 0) eqn:Z0; [split; [apply only_refl|reflexivity]|]. destruct (doesKeyExist P p s); [split; [apply only_refl|reflexivity]|]. rewrite sub_last by lia. cbn [fst]. split; [eapply only_trans; [apply only_identity|apply only_same; reflexivity]|]. cbn. unfold addIdentity. destruct (doesIdentityExist P _ s); reflexivity. }
    destruct (addKey P p tt' bb s) as [s1 [[]|e]]; cbn [fst] in *; [|exact A]. unfold bind, get, modify, lift, ret. destruct (doesCertificateExist _ _ s1); [exact A|]. destruct (encodeData _); [|exact A]. cbn [fst]. destruct A as [A B]. split; [eapply only_trans; [exact A|apply only_same; reflexivity]|exact B]. }
  destruct (st_addCertificate P c s) as [s1 [[]|e]]; cbn [fst] in *; [|exact A]. rewrite Ep, bind_eq. cbv beta iota delta [lift]. rewrite bind_eq, setKey_eq. cbv iota. destruct A as [A B].
  assert (C : forall s2, dflt P (fst (setDefaultCertificateForKey P c s2)) = dflt P s2) by (intro s2; unfold setDefaultCertificateForKey, bind, lift, get; rewrite Ep; destruct (negb _); [reflexivity|]; unfold modify, setDefaultCertificateNameForKey; cbn; destruct (sget (keys P s2) _) as [[[? ?] ?]|]; reflexivity).
  split; [|rewrite C; destruct (doesIdentityExist P _ s1); exact B]. eapply only_trans; [exact A|]. eapply only_trans; [|apply only_same, setCert_ids]. destruct (doesIdentityExist P _ s1); [eapply only_set; reflexivity|apply only_refl].
Qed.

Definition typed : Prop := forall t size r p b y, gen t size r = Ok p -> derive p = Ok b -> pk_new load_public floor40 b = Ok y -> pk_type y = Some t.
Lemma create_inv : forall i t size r now now2 s, inv s -> plain i -> 0 <= now -> 0 <= now2 -> inv (fst (create i t size r now now2 s)).
Proof.
  intros i t size r now now2 s I0 Hi Hn Hn2. rewrite create_eq. destruct (inv_identity strict i s Hi I0) as [I1 M]. set (s1 := addIdentity P i s) in *. rewrite bind_eq. destruct (choose_ok i t size r now s1 I1 Hi Hn M) as (I2 & _ & _ & _ & F). destruct (choose i t size r now s1) as [s2 [k|e]]; cbn [fst snd] in *; [|exact I2].
  destruct (F k eq_refl) as (_ & Hk & _). rewrite bind_eq, certTry_eq. destruct (match sget (keys P s2) (uri k) with Some (_, _, c) => c | None => None end) as [n|]; [exact I2|]. rewrite bind_eq. unfold get. destruct (selfSign k now2 s2) as [x|e] eqn:Es; [|exact I2].
  destruct (selfSign_named k now2 s2 x Hk Hn2 Es) as (l & v & r' & _ & _ & _ & _ & Hc). destruct Hc as (Hp & p & Ep & Kn). rewrite bind_eq. destruct (idDefault_ok strict x p s2 I2 (conj Hp (ex_intro _ p (conj Ep Kn))) Ep) as [I3 _]. destruct (addCertificateAsIdentityDefault P x s2) as [s3 [[]|e]]; exact I3.
Qed.
Lemma create_ok : forall i t size r now now2 s n, inv s -> plain i -> 0 <= now -> 0 <= now2 -> no_key_word i -> let z := create i t size r now now2 s in snd z = Ok n ->
  only_at (uri i) s (fst z) /\ dflt P (fst z) = dflt P s /\
  exists k x, sget (ids P (fst z)) (uri i) = Some (Some k) /\ plain k /\ (exists l, k = i ++ [l]) /\ default_cert (fst z) k n /\ getPublicKey k (fst z) = Ok x /\ (typed -> pk_type x = Some t) /\ key_name n k /\ plain n /\ (strict = true -> sget (certs P (fst z)) (uri n) <> None).
Proof.
  intros i t size r now now2 s n I0 Hi Hn Hn2 Nw z. subst z. rewrite create_eq. destruct (inv_identity strict i s Hi I0) as [I1 M]. pose proof (only_identity i s) as O1. assert (D1 : dflt P (addIdentity P i s) = dflt P s) by (unfold addIdentity; destruct (doesIdentityExist P i s); reflexivity). set (s1 := addIdentity P i s) in *. rewrite bind_eq.
  destruct (choose_ok i t size r now s1 I1 Hi Hn M) as (I2 & K2 & O2 & D2 & F). destruct (choose i t size r now s1) as [s2 [k|e]]; cbn [fst snd] in *; [|intro X; discriminate X].
  destruct (F k eq_refl) as (Ei & Hk & (l & El) & C). clear F. rewrite bind_eq, certTry_eq.
  assert (Gx : exists x, getPublicKey k s2 = Ok x /\ (typed -> pk_type x = Some t)).
  { destruct C as [(-> & x & Ex & Et)|(p & b & y & Eg & Ed & Ey & Ex & _)]; [eauto|]. exists y. split; [exact Ex|]. intro Ty. exact (Ty _ _ _ _ _ _ Eg Ed Ey). }
  clear C. destruct Gx as (x & Ex & Et). destruct (match sget (keys P s2) (uri k) with Some (_, _, c) => c | None => None end) as [n'|] eqn:Ec.
  - cbn [ret fst snd]. intros [= ->]. split; [exact (only_trans _ _ _ _ O1 O2)|]. split; [congruence|]. exists k, x. split; [exact Ei|]. split; [exact Hk|]. split; [eauto|]. destruct (sget (keys P s2) (uri k)) as [[[t' b'] c']|] eqn:Ek; [|discriminate Ec]. subst c'. split; [exists t', b'; exact Ek|]. split; [exact Ex|]. split; [exact Et|].
    destruct (inv_keys _ _ I2 _ _ _ _ Ek) as (k' & Hk' & _ & Eu & _ & G). apply uri_inj in Eu; [|exact Hk|exact Hk']. subst k'. destruct (G n eq_refl) as (G1 & G2 & G3). auto.
  - rewrite bind_eq. unfold get. destruct (selfSign k now2 s2) as [y|e] eqn:Es; [|intro X; discriminate X]. destruct (selfSign_named k now2 s2 y Hk Hn2 Es) as (l' & v & r' & Ek & Ev & Er & En & Hc). rewrite El, removelast_last in Ek. apply app_inj_tail in Ek. destruct Ek as [_ <-].
    assert (Kn : key_name (d_name (ic_data y)) k) by (rewrite En, Er, El, removelast_last; now apply self_key_name). pose proof Hc as (Hp & p & Ep & Kp). rewrite (key_name_fun _ _ _ Kp Kn) in Ep. clear p Kp. rewrite bind_eq.
    destruct (idDefault_ok strict y k s2 I2 Hc Ep) as [I3 F]. destruct (idDefault_only y k s2 Ep ltac:(auto)) as [O3 D3]. pose proof (kp_idDefault y s2) as K3. destruct (addCertificateAsIdentityDefault P y s2) as [s3 [[]|e]]; cbn [fst snd ret] in *; [|intro X; discriminate X]. intros [= <-].
    destruct (F eq_refl) as (F1 & F2 & F3). assert (Rk : removelast k = i) by (rewrite El; apply removelast_last). rewrite Rk in *. split; [exact (only_trans _ _ _ _ O1 (only_trans _ _ _ _ O2 O3))|]. split; [congruence|]. exists k, x. split; [exact F3|]. split; [exact Hk|]. split; [eauto|]. split; [exact F2|]. split; [exact (kept_public _ _ _ _ K3 Ex)|]. split; [exact Et|]. split; [exact Kn|]. split; [exact Hp|auto].
Qed.
(** Nothing changes when the identity has a key of this type and a certificate *)
Lemma create_noop : forall i t size r now now2 s k x n, sget (ids P s) (uri i) = Some (Some k) -> getPublicKey k s = Ok x -> pk_type x = Some t -> default_cert s k n -> create i t size r now now2 s = (s, Ok n).
Proof.
  intros i t size r now now2 s k x n Ei Ex Et (t' & b & Ek). rewrite create_eq. assert (E : addIdentity P i s = s) by (unfold addIdentity; assert (doesIdentityExist P i s = true) as -> by (apply sin_some; eauto); reflexivity). rewrite E.
  assert (C : choose i t size r now s = (s, Ok k)) by (unfold choose, try_, bind, get, ret, getDefaultKeyNameForIdentity; rewrite Ei, Ex, Et, Z.eqb_refl; reflexivity). rewrite bind_eq, C, bind_eq, certTry_eq, Ek. reflexivity.
Qed.
Lemma generateAs_inv : forall d i ksk t size r now s, inv s -> plain i -> 0 <= now -> inv (fst (generateKeyPairAs P gen derive load_public floor40 d i ksk t size r now s)).
Proof.
  intros d i ksk t size r now s I0 Hi Hn. unfold generateKeyPairAs. rewrite bind_eq. pose proof (generate_ok gen derive load_public floor40 strict i ksk t size r now s I0 Hi Hn) as X. cbv zeta in X. destruct (generateKeyPair P gen derive load_public floor40 i ksk t size r now s) as [s1 [k|e]]; cbn [fst snd] in X; [|tauto].
  destruct X as (I1 & _ & _ & _ & X). destruct (X k eq_refl) as (_ & Hk & _). destruct d; [|exact I1]. rewrite bind_eq. destruct (tri_setKey strict (fun _ => True) k [] Hk ltac:(auto) s1 I1 Logic.I) as [I2 _]. destruct (setDefaultKeyNameForIdentity P k [] s1) as [s2 [[]|e]]; exact I2.
Qed.
Lemma perform_inv : forall o s, op_ok strict o -> inv s -> inv (fst (perform o s)).
Proof.
  assert (U : forall A (m : im A) s, fst (unit_of P m s) = fst (m s)) by (intros A m s; unfold unit_of; rewrite bind_eq; destruct (m s) as [s' [a|e]]; reflexivity).
  assert (V : forall (m : im name) s, fst (name_of P m s) = fst (m s)) by (intros m s; unfold name_of; rewrite bind_eq; destruct (m s) as [s' [a|e]]; reflexivity).
  intros o s Ho I0. destruct o; cbn [IdmModel.perform]; rewrite ?U, ?V; cbn [op_ok] in Ho.
  - exact (proj1 (inv_identity strict i s Ho I0)).
  - now apply create_inv.
  - now apply generateAs_inv.
  - unfold setKeyPair, bind, lift, modify. destruct (pk_new load_public floor40 pub); [|exact I0]. destruct (load_pkcs8 priv t); apply (inv_other strict s); auto.
  - unfold modify, setDefaultIdentity. cbn [fst]. destruct (doesIdentityExist P i s) eqn:E; (destruct I0 as [J1 J2 J3 J4]; split; cbn; [exact J1|exact J2|exact J3|]); [right|now left]. exists i. split; [exact Ho|]. split; [reflexivity|]. apply sin_some in E. destruct E as [v ->]. discriminate.
  - exact (proj1 (tri_setKey strict (fun _ => True) k check (proj1 Ho) ltac:(auto) s I0 Logic.I)).
  - destruct Ho as [Hc S]. pose proof Hc as (Hp & p & Ep & _). exact (proj1 (tri_setCert strict (fun _ => True) c p Hc Ep ltac:(auto) ltac:(congruence) s I0 Logic.I)).
  - pose proof Ho as (Hp & p & Ep & _). exact (proj1 (tri_addCert strict (fun _ => True) c p Ho Ep ltac:(auto) s I0 Logic.I)).
  - pose proof Ho as (Hp & p & Ep & _). exact (proj1 (idDefault_ok strict c p s I0 Ho Ep)).
  - pose proof Ho as (Hp & p & Ep & _). unfold addCertificateAsDefault. rewrite bind_eq. destruct (tri_addCert strict (fun _ => True) c p Ho Ep ltac:(auto) s I0 Logic.I) as [I1 F]. destruct (st_addCertificate P c s) as [s1 [[]|e]]; cbn [fst snd] in *; [|exact I1]. destruct (F tt eq_refl) as (_ & _ & C).
    refine (proj1 (tri_setCert strict (fun x => keeps s1 x) c p Ho Ep (fun a b X Y => keeps_trans _ _ _ Y X) _ s1 I1 (keeps_refl _))). intros a X _. exact (kept_cert _ _ _ X C).
  - unfold deleteIdentity. destruct (getDefaultIdentity P s) as [n|[]]; try (destruct (n_equals n i)); exact I0.
Qed.
Lemma run_inv : forall h s, Forall (op_ok strict) h -> inv s -> inv (run h s).
Proof. induction h as [|o h IH]; intros s F I0; [exact I0|]. inversion F; subst. cbn [IdmModel.run]. apply IH; [assumption|]. now apply perform_inv. Qed.
End Proofs.
