(** * C91: the version 1 identity manager *)
From Verif Require MatchProps ChainProofs3.
From Verif Require Import Base BaseLemmas NameModel NameSpec NameProofs UriModel UriSpec UriProofs UriProps BlobModel DictModel DictProofs DerModel DerSpec PkcsModel CalProofs TlvSpec WireModel WireSpec WireProofs WireProofs5 IcertModel IcertSpec IcertProps IdmModel IdmSpec IdmProofs IdmProofs2 IdmProofs3.
Local Open Scope res_scope.

(** The URI of a plain name is ASCII *)
Lemma ascii_uri : forall n, plain n -> ascii (uri n).
Proof.
  intros n H. unfold uri, n_toUri. destruct n as [|x n]; [repeat constructor; lia|]. cbn [app]. set (l := x :: n) in *. clearbody l. clear x n. induction H as [|x l Hx _ IH]; [constructor|]. cbn [flat_map]. apply Forall_app. split; [|exact IH].
  constructor; [lia|]. destruct Hx as [B T]. pose proof (proj2 (C12_escaped_alphabet _ B)) as U. assert (A : ascii (toEscapedString (c_value x))) by (eapply Forall_impl; [|exact U]; intros a Ha; unfold uri_char in Ha; cbn in Ha; lia).
  unfold c_toEscapedString. destruct T as [[-> _]|[-> [T _]]]; cbn [Z.eqb CT_IMPLICIT CT_PARAMS CT_GENERIC CT_OTHER Pos.eqb negb]; [exact A|]. apply Forall_app. split; [|exact A]. apply Forall_app. split; [|repeat constructor; lia].
  destruct (str_int_dig _ T) as [D _]. eapply Forall_impl; [|exact D]. intros a Ha. unfold isdig in Ha. lia.
Qed.
Lemma str_int_inj : forall a b, 0 <= a -> 0 <= b -> str_int a = str_int b -> a = b.
Proof. intros a b A B E. pose proof (int10_str a A) as X. rewrite E, (int10_str b B) in X. congruence. Qed.

Section Props.
Context {P : Type}.
Variable gen : Z -> Z -> Z -> res P.
Variable derive : P -> res bytes.
Variable psign : P -> Z -> bytes -> res bytes.
Variable load_pkcs8 : bytes -> Z -> res P.
Variable load_public : bytes -> res unit.
Variable floor40 : Z -> Z.
Notation st := (st P).
Notation perform := (perform P gen derive psign load_pkcs8 load_public floor40).
Notation run := (run P gen derive psign load_pkcs8 load_public floor40).
Notation getCertificate := (getCertificate P load_public floor40).
Notation getPublicKey := (getPublicKey P load_public floor40).
Notation signData := (signData P psign).
Notation getKey := (getKey P). Notation doesIdentityExist := (doesIdentityExist P). Notation doesKeyExist := (doesKeyExist P). Notation doesCertificateExist := (doesCertificateExist P).
Notation getDefaultIdentity := (getDefaultIdentity P). Notation getDefaultKeyNameForIdentity := (getDefaultKeyNameForIdentity P). Notation getDefaultCertificateNameForKey := (getDefaultCertificateNameForKey P).
Notation getDefaultCertificateNameForIdentity := (getDefaultCertificateNameForIdentity P).
(** A state which a program reaches *)
Definition reached (strict : bool) (s : st) : Prop := exists start h, Forall (op_ok strict) h /\ s = run h (st_init P start).
Lemma reached_inv : forall strict s, reached strict s -> inv strict s.
Proof. intros strict s (start & h & F & ->). apply run_inv; [exact F|apply inv_init]. Qed.

(** Whatever is done afterwards, a key keeps its bits, a certificate is what it was, an identity stays,
    and a default is replaced but never lost. *)
Theorem C91_kept : forall h s, let s' := run h s in
  (forall k b, getKey k s = Ok b -> getKey k s' = Ok b) /\
  (forall n, doesCertificateExist n s = true -> doesCertificateExist n s' = true /\ getCertificate n s' = getCertificate n s) /\
  (forall i, doesIdentityExist i s = true -> doesIdentityExist i s' = true) /\
  (forall i k, getDefaultKeyNameForIdentity i s = Ok k -> exists k', getDefaultKeyNameForIdentity i s' = Ok k') /\
  (forall k n, getDefaultCertificateNameForKey k s = Ok n -> exists n', getDefaultCertificateNameForKey k s' = Ok n').
Proof.
  intros h s s'. pose proof (run_keeps gen derive psign load_pkcs8 load_public floor40 h s) as (K1 & K2 & K3 & _). fold s' in K1, K2, K3. split; [|split; [|split; [|split]]].
  - intros k b H. unfold IdmModel.getKey in *. destruct (zlen k =? 0); [discriminate H|]. destruct (dget zlist_eqb (keys P s) (uri k)) as [[[t b'] c]|] eqn:E; [|discriminate H]. destruct (K2 _ _ _ _ E) as (c' & -> & _). exact H.
  - intros n H. unfold IdmModel.doesCertificateExist in *. apply sin_some in H. destruct H as [w H]. pose proof (K3 _ _ H) as H'. split; [apply sin_some; eauto|]. unfold IdmModel.getCertificate. rewrite H, H'. reflexivity.
  - intros i H. apply sin_some in H. destruct H as [v H]. destruct (K1 _ _ H) as (v' & H' & _). apply sin_some. eauto.
  - intros i k H. unfold IdmModel.getDefaultKeyNameForIdentity in *. destruct (dget zlist_eqb (ids P s) (uri i)) as [[k0|]|] eqn:E; try discriminate H. destruct (K1 _ _ E) as ([k'|] & -> & N); [eauto|]. destruct N; [discriminate|reflexivity].
  - intros k n H. unfold IdmModel.getDefaultCertificateNameForKey in *. destruct (dget zlist_eqb (keys P s) (uri k)) as [[[t b] [n0|]]|] eqn:E; try discriminate H. destruct (K2 _ _ _ _ E) as ([n'|] & -> & N); [eauto|]. destruct N; [discriminate|reflexivity].
Qed.

(** In every state which a program reaches: the default key of an identity is a name in the identity;
    the default certificate of a key is a certificate name of that key; a key has its identity and a
    certificate its key; the default identity is an identity. With [strict], the default certificate is
    in the storage. *)
Theorem C91_defaults : forall strict s, reached strict s ->
  (forall i k, plain i -> getDefaultKeyNameForIdentity i s = Ok k -> k = [] /\ i = [] \/ exists l, k = i ++ [l]) /\
  (forall k n, plain k -> getDefaultCertificateNameForKey k s = Ok n -> key_name n k /\ (strict = true -> doesCertificateExist n s = true)) /\
  (forall i l, plain (i ++ [l]) -> doesKeyExist (i ++ [l]) s = true -> doesIdentityExist i s = true) /\
  (forall n k, plain n -> key_name n k -> k <> [] -> doesCertificateExist n s = true -> doesKeyExist k s = true) /\
  (forall i, getDefaultIdentity s = Ok i -> doesIdentityExist i s = true).
Proof.
  intros strict s R. apply reached_inv in R. split; [|split; [|split; [|split]]].
  - intros i k Hi H. unfold IdmModel.getDefaultKeyNameForIdentity in H. destruct (dget zlist_eqb (ids P s) (uri i)) as [[k0|]|] eqn:E; try discriminate H. injection H as ->. destruct (inv_ids _ _ R _ _ E) as (i' & Hi' & Eu & F). apply uri_inj in Eu; auto. subst i'. destruct (F k eq_refl) as [_ Er].
    destruct k as [|x k0]; [left; cbn in Er; auto|]. right. destruct (split_last_comp (x :: k0) ltac:(discriminate)) as (l & El). exists l. rewrite Er in El. exact El.
  - intros k n Hk H. unfold IdmModel.getDefaultCertificateNameForKey in H. destruct (dget zlist_eqb (keys P s) (uri k)) as [[[t b] [n0|]]|] eqn:E; try discriminate H. injection H as ->. destruct (inv_keys _ _ R _ _ _ _ E) as (k' & Hk' & _ & Eu & _ & F). apply uri_inj in Eu; auto. subst k'. destruct (F n eq_refl) as (_ & F2 & F3). split; [exact F2|]. intro S. specialize (F3 S). apply sin_some. destruct (dget zlist_eqb (certs P s) (uri n)) as [w|] eqn:Ew; [eauto|congruence].
  - intros i l Hk H. apply sin_some in H. destruct H as [v H]. assert (N : dget zlist_eqb (keys P s) (uri (i ++ [l])) <> None) by congruence. apply (key_identity strict s _ R Hk) in N. rewrite removelast_last in N. apply sin_some. destruct (dget zlist_eqb (ids P s) (uri i)) as [w|]; [eauto|congruence].
  - intros n k Hn Kn Nk H. apply sin_some in H. destruct H as [w H]. destruct (inv_certs _ _ R _ _ H) as (n' & p & Hn' & Eu & Kp & D). apply uri_inj in Eu; auto. subst n'. rewrite (key_name_fun _ _ _ Kp Kn) in D. destruct D as [D|D]; [contradiction|]. apply sin_some. destruct (dget zlist_eqb (keys P s) (uri k)) as [v|]; [eauto|congruence].
  - intros i H. unfold IdmModel.getDefaultIdentity in H. destruct (inv_dflt _ _ R) as [D|(j & Hj & D & N)]; rewrite D in H; [discriminate H|]. destruct (zlen (uri j) =? 0) eqn:Z0; [discriminate H|]. unfold uri in H. pose proof (C12_uri_round_trip j [] false Hj (or_introl eq_refl)) as X. rewrite app_nil_r in X. rewrite X in H. injection H as <-.
    apply sin_some. destruct (dget zlist_eqb (ids P s) (uri j)) as [v|]; [eauto|congruence].
Qed.

(** A key that is generated: its name was not there, and says ksk or dsk and the time in seconds, or, when
    a key was named for that time already, a later one: the number of every key that a program
    generates, for any identity, is greater than the one before, however the clock is set. *)
Theorem C91_new_key : forall strict s d i ksk t size r now s1 k, reached strict s -> plain i -> 0 <= now -> perform (OGenerate d i ksk t size r now) s = (s1, Ok (Some k)) ->
  getKey k s = Err SecurityException /\ (exists p b, gen t size r = Ok p /\ derive p = Ok b /\ getKey k s1 = Ok b) /\ (d = true -> getDefaultKeyNameForIdentity i s1 = Ok k) /\
  exists T, stamped k i ksk T /\ now / 1000 <= T /\
    forall h d' i' ksk' t' size' r' now' s2 k', Forall (op_ok strict) h -> plain i' -> 0 <= now' -> perform (OGenerate d' i' ksk' t' size' r' now') (run h s1) = (s2, Ok (Some k')) ->
      k' <> k /\ exists T', stamped k' i' ksk' T' /\ T < T' /\ (T < now' / 1000 -> h = [] -> T' = now' / 1000).
Proof.
  intros strict s d i ksk t size r now s1 k R Hi Hn H. pose proof (reached_inv _ _ R) as I0.
  assert (G : forall s d i ksk t size r now s1 k, inv strict s -> plain i -> 0 <= now -> perform (OGenerate d i ksk t size r now) s = (s1, Ok (Some k)) ->
    inv strict s1 /\ lastTs P s1 = Z.max (now / 1000) (lastTs P s + 1) /\ stamped k i ksk (Z.max (now / 1000) (lastTs P s + 1)) /\ dget zlist_eqb (keys P s) (uri k) = None /\ (exists p b, gen t size r = Ok p /\ derive p = Ok b /\ getKey k s1 = Ok b) /\ (d = true -> getDefaultKeyNameForIdentity i s1 = Ok k)).
  { clear. intros s d i ksk t size r now s1 k I0 Hi Hn H. pose proof (perform_inv gen derive psign load_pkcs8 load_public floor40 strict (OGenerate d i ksk t size r now) s (conj Hi Hn) I0) as I1. rewrite H in I1. cbn [fst] in I1. split; [exact I1|]. cbn [IdmModel.perform] in H. unfold name_of in H. rewrite bind_eq in H. unfold generateKeyPairAs in H. rewrite bind_eq in H.
    pose proof (generate_ok gen derive load_public floor40 strict i ksk t size r now s I0 Hi Hn) as X. cbv zeta in X. destruct (generateKeyPair P gen derive load_public floor40 i ksk t size r now s) as [s' [k0|e]]; [|discriminate H]. cbn [fst snd] in X. destruct X as (I2 & E2 & _ & L & X). destruct (X k0 eq_refl) as (St & Hk & N & p & b & y & Eg & Ed & _ & Ek & _).
    assert (Y : k0 = k /\ (if d then s1 = fst (setDefaultKeyNameForIdentity P k0 [] s') else s1 = s')).
    { destruct d; [rewrite bind_eq, setKey_eq in H; rewrite setKey_eq|]; cbn in H; injection H as <- <-; auto. }
    destruct Y as [-> Es]. assert (Zk : (zlen k =? 0) = false) by (rewrite St, zlen_app, zlen_cons, zlen_nil; pose proof (zlen_nonneg _ i); lia).
    assert (Gk : forall s2, keys P s2 = keys P s' -> getKey k s2 = Ok b) by (intros s2 E; unfold IdmModel.getKey; rewrite Zk, E, Ek, sget_same; reflexivity).
    destruct d; subst s1; [rewrite setKey_eq in *; cbn [fst]|].
    - assert (Rk : removelast k = i) by (rewrite St; apply removelast_last). rewrite Rk in *. assert (Ex : doesIdentityExist i s' = true).
      { unfold IdmModel.doesIdentityExist. rewrite E2. unfold addIdentity. destruct (IdmModel.doesIdentityExist P i s) eqn:Ex; [exact Ex|]. apply sin_some. cbn. rewrite sget_same. eauto. }
      rewrite Ex. split; [exact L|]. split; [exact St|]. split; [exact N|]. split; [exists p, b; auto|]. intros _. unfold IdmModel.getDefaultKeyNameForIdentity. cbn. rewrite sget_same. reflexivity.
    - split; [exact L|]. split; [exact St|]. split; [exact N|]. split; [exists p, b; auto|discriminate]. }
  destruct (G _ _ _ _ _ _ _ _ _ _ I0 Hi Hn H) as (I1 & L1 & St1 & N1 & Gk & Df). split; [unfold IdmModel.getKey; destruct (zlen k =? 0); [reflexivity|rewrite N1; reflexivity]|]. split; [exact Gk|]. split; [exact Df|]. eexists. split; [exact St1|]. split; [lia|].
  intros h d' i' ksk' t' size' r' now' s2 k' Fh Hi' Hn' H2. pose proof (run_inv gen derive psign load_pkcs8 load_public floor40 strict h s1 Fh I1) as I2. pose proof (run_keeps gen derive psign load_pkcs8 load_public floor40 h s1) as (_ & _ & _ & L2).
  destruct (G _ _ _ _ _ _ _ _ _ _ I2 Hi' Hn' H2) as (_ & _ & St2 & _). split; [|eexists; split; [exact St2|]; split; [lia|intros A ->; cbn [IdmModel.run] in *; lia]].
  intro E. subst k'. unfold stamped in St1, St2. rewrite St1 in St2. apply app_inj_tail in St2. destruct St2 as [_ E]. injection E as E. assert (E' : str_int (Z.max (now / 1000) (lastTs P s + 1)) = str_int (Z.max (now' / 1000) (lastTs P (run h s1) + 1))) by (destruct ksk, ksk'; cbn in E; congruence).
  assert (0 <= now / 1000 /\ 0 <= now' / 1000) by (split; apply Z.div_pos; lia). apply str_int_inj in E'; lia.
Qed.

(** createIdentityAndCertificate: the name it returns is a certificate name of the default key of the
    identity and its default certificate; the key has the type that was asked for; no other identity
    and not the default identity changes. Called again for this type it changes nothing and returns the
    same name. *)
Theorem C91_create : forall strict s i t size r now now2 s' n, reached strict s -> plain i -> no_key_word i -> 0 <= now -> 0 <= now2 ->
  (forall t size r p b y, gen t size r = Ok p -> derive p = Ok b -> pk_new load_public floor40 b = Ok y -> pk_type y = Some t) ->
  perform (OCreate i t size r now now2) s = (s', Ok (Some n)) ->
  (exists k l x, k = i ++ [l] /\ getDefaultKeyNameForIdentity i s' = Ok k /\ getDefaultCertificateNameForKey k s' = Ok n /\ key_name n k /\ getPublicKey k s' = Ok x /\ pk_type x = Some t) /\
  getDefaultCertificateNameForIdentity i s' = Ok n /\ (strict = true -> doesCertificateExist n s' = true) /\
  (forall j, plain j -> j <> i -> getDefaultKeyNameForIdentity j s' = getDefaultKeyNameForIdentity j s /\ doesIdentityExist j s' = doesIdentityExist j s) /\ getDefaultIdentity s' = getDefaultIdentity s /\
  forall size' r' now' now2', perform (OCreate i t size' r' now' now2') s' = (s', Ok (Some n)).
Proof.
  intros strict s i t size r now now2 s' n R Hi Nw Hn Hn2 Ty H. apply reached_inv in R. cbn [IdmModel.perform] in *. unfold name_of in *. rewrite bind_eq in H. pose proof (create_ok gen derive psign load_public floor40 strict i t size r now now2 s) as X. cbv zeta in X.
  destruct (createIdentityAndCertificate P gen derive psign load_public floor40 i t size r now now2 s) as [s1 [n1|e]]; cbn [fst snd] in X; [|discriminate H]. cbn in H. injection H as <- <-. destruct (X n1 R Hi Hn Hn2 Nw eq_refl) as (O & D & k & x & Ei & Hk & (l & El) & Dc & Ex & Et & Kn & Hp & S). clear X. specialize (Et Ty).
  assert (E1 : getDefaultKeyNameForIdentity i s1 = Ok k) by (unfold IdmModel.getDefaultKeyNameForIdentity; rewrite Ei; reflexivity). assert (E2 : getDefaultCertificateNameForKey k s1 = Ok n1) by (destruct Dc as (t' & b & Dc); unfold IdmModel.getDefaultCertificateNameForKey; rewrite Dc; reflexivity).
  split; [exists k, l, x; auto 8|]. split; [unfold IdmModel.getDefaultCertificateNameForIdentity; rewrite E1; exact E2|]. split; [intro St; specialize (S St); apply sin_some; destruct (dget zlist_eqb (certs P s1) (uri n1)) as [w|]; [eauto|congruence]|].
  split; [|split; [unfold IdmModel.getDefaultIdentity; rewrite D; reflexivity|]].
  - intros j Hj Nj. assert (E : dget zlist_eqb (ids P s1) (uri j) = dget zlist_eqb (ids P s) (uri j)) by (apply O; intro Y; apply uri_inj in Y; auto). unfold IdmModel.getDefaultKeyNameForIdentity, IdmModel.doesIdentityExist, din. rewrite E. auto.
  - intros size' r' now' now2'. rewrite bind_eq, (create_noop gen derive psign load_public floor40 i t size' r' now' now2' s1 k x n1 Ei Ex Et Dc). reflexivity.
Qed.

(** ** Signing by a certificate name *)
Definition by_key (t : Z) (locator : name) (bits : option bytes) : signature := if t =? 0 then SigRsa (KL (Some 1) locator None) vp_none bits else SigEcdsa (KL (Some 1) locator None) vp_none bits.
Lemma by_key_ok : forall t l b, name_ok l -> sig_ok (by_key t l b).
Proof. intros. unfold by_key. destruct (t =? 0); (split; [left; auto|now left]). Qed.
Lemma signed_by_key : forall d t l b b', data_signed (Data (d_name d) (d_meta d) (d_content d) (by_key t l b)) = data_signed (Data (d_name d) (d_meta d) (d_content d) (by_key t l b')).
Proof. intros. unfold by_key. destruct (t =? 0); reflexivity. Qed.
Lemma name_ok_removelast : forall n, name_ok n -> name_ok (removelast n).
Proof. intro k. destruct k as [|x k] using rev_ind; [auto|]. rewrite removelast_last. intro H. apply Forall_app in H. tauto. Qed.
(** The key that a certificate name names, as the private key storage has it *)
Definition signer_key (s : st) (k : name) (t : Z) (p : P) : Prop := (exists x, dget zlist_eqb (pubs P s) (uri k) = Some x /\ pk_type x = Some t) /\ (t = 0 \/ t = 1) /\ dget zlist_eqb (privs P s) (uri k) = Some p.
Lemma makeSignature_ok : forall n k t p s, key_name n k -> signer_key s k t p -> makeSignature P n s = Ok (by_key t (removelast n) None).
Proof.
  intros n k t p s Kn ((x & Ex & Et) & T & _). unfold makeSignature. rewrite (proj2 (proj1 (C89_key_name n k)) Kn). cbn [rbind]. unfold tpm_getPublicKey. rewrite Ex. cbn [rbind]. rewrite prefix_last. cbn [rbind]. rewrite Et. destruct T as [->| ->]; reflexivity.
Qed.
(** The signature of a Data is by the key that the certificate name names, over the portion that is
    signed, and its key locator is the certificate name without the version. *)
Theorem C91_sign : forall s d n k t p, name_ok (d_name d) -> mi_ok (d_meta d) -> name_ok n -> key_name n k -> signer_key s k t p ->
  forall bits, psign p 1 (data_signed (Data (d_name d) (d_meta d) (d_content d) (by_key t (removelast n) None))) = Ok bits ->
  signData d n s = Ok (Data (d_name d) (d_meta d) (d_content d) (by_key t (removelast n) (Some bits))).
Proof.
  intros s d n k t p Hd Hm Hn Kn Sk bits Hs. unfold IdmModel.signData. rewrite (makeSignature_ok n k t p s Kn Sk). cbn [rbind]. pose proof (name_ok_removelast _ Hn) as Hl.
  destruct (ChainProofs3.data_slice (Data (d_name d) (d_meta d) (d_content d) (by_key t (removelast n) None))) as (w & b & e & -> & Sl); [split; [exact Hd|]; split; [exact Hm|]; now apply by_key_ok|]. cbn [rbind signed_part]. rewrite (proj2 (proj1 (C89_key_name n k)) Kn). cbn [rbind]. rewrite Sl.
  destruct Sk as (_ & _ & Ep). unfold tpm_sign. rewrite Ep, Hs. cbn [rbind]. assert (Eb : sig_setBits (by_key t (removelast n) None) (Some bits) = by_key t (removelast n) (Some bits)) by (unfold by_key; destruct (t =? 0); reflexivity). rewrite Eb.
  destruct (ChainProofs3.data_slice (Data (d_name d) (d_meta d) (d_content d) (by_key t (removelast n) (Some bits)))) as (w' & b' & e' & -> & _); [split; [exact Hd|]; split; [exact Hm|]; now apply by_key_ok|]. reflexivity.
Qed.
(** When it does not sign: a name that is not a certificate name, a key that the private key storage
    does not have, or an error of the cryptography. *)
Theorem C91_sign_refused : forall s d n,
  ((forall k, ~ key_name n k) -> signData d n s = Err RuntimeError) /\
  (forall k, key_name n k -> dget zlist_eqb (pubs P s) (uri k) = None -> signData d n s = Err SecurityException) /\
  (forall k d', signData d n s = Ok d' -> key_name n k -> exists t p, signer_key s k t p).
Proof.
  intros s d n. split; [|split].
  - intro H. unfold IdmModel.signData, makeSignature. rewrite (proj2 (C89_key_name n []) H). reflexivity.
  - intros k Kn H. unfold IdmModel.signData, makeSignature. rewrite (proj2 (proj1 (C89_key_name n k)) Kn). cbn [rbind]. unfold tpm_getPublicKey. rewrite H. reflexivity.
  - intros k d' H Kn. unfold IdmModel.signData in H. apply rbind_ok in H. destruct H as (sg & Es & H). apply rbind_ok in H. destruct H as (e & _ & H). rewrite (proj2 (proj1 (C89_key_name n k)) Kn) in H. cbn [rbind] in H. apply rbind_ok in H. destruct H as (bits & Eb & _).
    unfold makeSignature in Es. rewrite (proj2 (proj1 (C89_key_name n k)) Kn) in Es. cbn [rbind] in Es. unfold tpm_getPublicKey in Es. destruct (dget zlist_eqb (pubs P s) (uri k)) as [x|] eqn:Ex; [|discriminate Es]. cbn [rbind] in Es. rewrite prefix_last in Es. cbn [rbind] in Es. unfold tpm_sign in Eb. destruct (dget zlist_eqb (privs P s) (uri k)) as [p|] eqn:Ep; [|discriminate Eb].
    destruct (pk_type x) as [[|[q|q|]|]|] eqn:Et; try discriminate Es; [exists 0|exists 1]; exists p; (split; [exists x; auto|]; split; [lia|exact Ep]).
Qed.
End Props.
