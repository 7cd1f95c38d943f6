(** * C91, continued: the certificate that is made; prepared certificates; witnesses *)
From Verif Require MatchProps ChainProofs3.
From Verif Require Import Base BaseLemmas NameModel NameSpec NameProofs UriModel UriSpec UriProofs UriProps BlobModel DictModel DictProofs DerModel DerSpec DerProps PkcsModel CalProofs TlvSpec WireModel WireSpec WireProofs WireProofs5 WireProps IcertModel IcertSpec IcertProps IdmModel IdmSpec IdmProofs IdmProofs2 IdmProofs3 IdmProps.
Local Open Scope res_scope.

Section Props.
Context {P : Type}.
Variable gen : Z -> Z -> Z -> res P.
Variable derive : P -> res bytes.
Variable psign : P -> Z -> bytes -> res bytes.
Variable load_pkcs8 : bytes -> Z -> res P.
Variable load_public : bytes -> res unit.
Variable floor40 : Z -> Z.
Hypothesis Hfl : floor_ok floor40.
Notation st := (st P).
Notation perform := (perform P gen derive psign load_pkcs8 load_public floor40).
Notation run := (run P gen derive psign load_pkcs8 load_public floor40).
Notation getCertificate := (getCertificate P load_public floor40).
Notation doesKeyExist := (doesKeyExist P).
Notation sget := (dget zlist_eqb). Notation sset := (dset zlist_eqb).
Notation reached := (reached gen derive psign load_pkcs8 load_public floor40).

(** The certificate before it is signed, and with its signature *)
Definition unsigned (n : name) (nb na : Z) (text : bytes) (x : publicKey) (k : name) (d : data) : cert := ICert d nb na [Subject (IsOid [2; 5; 4; 41]) text] [] x (Some k).
Lemma encode_any : forall c c' d, ic_encode c = Ok c' -> d_meta d = d_meta (ic_data c) -> ic_encode (ic_setData c d) = Ok (ic_setData c' (Data (d_name d) (d_meta (ic_data c')) (d_content (ic_data c')) (d_sig d))).
Proof.
  intros c c' d H Hm. unfold ic_encode in *. assert (E : ic_toDer (ic_setData c d) = ic_toDer c) by reflexivity. rewrite E. destruct (ic_toDer c) as [root|]; [|discriminate H]. cbn [rbind] in *. injection H as <-. cbn. rewrite Hm. reflexivity.
Qed.
Lemma generic_ok : forall v, bytes_ok v -> comp_ok (c_generic v).
Proof.
  intros v H. split; [split; [exact H|right; split; [right; right|]; reflexivity]|]. split; [reflexivity|]. intros [X|X]; discriminate X.
Qed.

(** Creating an identity that has no default key makes a key, and a certificate for it which is signed
    with it, and is read back from the storage. *)
Theorem C91_create_first : forall strict s i t size r now now2 p b key, reached strict s -> plain i -> name_ok i -> no_key_word i -> 0 <= now -> 0 <= now2 ->
  getDefaultKeyNameForIdentity P i s = Err SecurityException -> (forall k T, stamped k i true T -> doesKeyExist k s = false) ->
  gen t size r = Ok p -> derive p = Ok b -> known_key load_public key b t -> (forall m, exists bits, psign p 1 m = Ok bits) -> iso_range (now2 / 1000) -> iso_range ((now2 + 63072000000) / 1000) ->
  exists s' T l v k n d bits, stamped k i true T /\ k = i ++ [l] /\ c_fromVersion now2 = Ok v /\ n = i ++ [c_generic [75; 69; 89]; l; c_generic [73; 68; 45; 67; 69; 82; 84]; v] /\
    perform (OCreate i t size r now now2) s = (s', Ok (Some n)) /\
    d_name d = n /\ psign p 1 (data_signed d) = Ok bits /\ d_sig d = by_key t (removelast n) (Some bits) /\
    (zlen (data_bytes d) < 2 ^ 64 ->
     getCertificate n s' = Ok (ICert (data_seen (ic_data cert_new) d) (now2 / 1000 * 1000) ((now2 + 63072000000) / 1000 * 1000) [Subject (IsOid [2; 5; 4; 41]) (n_toUri k false)] [] (PK (Some b) (Some t)) (Some k))).
Proof.
  intros strict s i t size r now now2 p b key R Hi Ni Nw Hn Hn2 Hd Fresh Eg Ed Hk Ps Ir1 Ir2. apply reached_inv in R.
  cbn [IdmModel.perform]. unfold name_of. rewrite bind_eq, create_eq. destruct (inv_identity strict i s Hi R) as [I1 M]. set (s1 := addIdentity P i s) in *.
  assert (E1 : getDefaultKeyNameForIdentity P i s1 = Err SecurityException).
  { unfold getDefaultKeyNameForIdentity in *. subst s1. unfold addIdentity. destruct (doesIdentityExist P i s) eqn:E; [exact Hd|]. cbn. rewrite sget_same. reflexivity. }
  assert (K1 : keys P s1 = keys P s) by (subst s1; unfold addIdentity; destruct (doesIdentityExist P i s); reflexivity).
  rewrite bind_eq, choose_eq, E1. set (T := Z.max (now / 1000) (lastTs P s1 + 1)). set (l := c_generic (ksk_text ++ str_int T)). assert (T0 : 0 <= T) by (subst T; assert (0 <= now / 1000) by (apply Z.div_pos; lia); lia).
  assert (Fk : doesKeyExist (i ++ [l]) s1 = false) by (unfold IdmModel.doesKeyExist; rewrite K1; apply (Fresh _ T); reflexivity).
  pose proof (C89_public_key load_public floor40 Hfl key b t Hk) as Ey.
  pose proof (generate_ok gen derive load_public floor40 strict i true t size r now s1 I1 Hi Hn) as X. cbv zeta in X.
  assert (G : exists s2, generateKeyPair P gen derive load_public floor40 i true t size r now s1 = (s2, Ok (i ++ [l]))).
  { unfold generateKeyPair. rewrite bind_eq. assert (Gn : getNewKeyName P i true now s1 = (set_last P T s1, Ok (i ++ [l]))).
    { unfold getNewKeyName, bind, get, modify. cbv beta zeta iota. assert (Et : (if now / 1000 <=? lastTs P s1 then lastTs P s1 + 1 else now / 1000) = T) by (subst T; destruct (_ <=? _) eqn:E; lia). rewrite Et. fold l. change (doesKeyExist (i ++ [l]) (set_last P T s1)) with (doesKeyExist (i ++ [l]) s1). rewrite Fk. reflexivity. }
    rewrite Gn. unfold tpm_generate, bind, lift, modify, get, tpm_getPublicKey, ret. rewrite Eg, Ed, Ey. cbn [pubs set_pubs set_privs set_last pk_der]. rewrite sget_same. cbv beta iota.
    unfold addKey. replace (zlen (i ++ [l]) =? 0) with false by (rewrite zlen_app, zlen_cons, zlen_nil; pose proof (zlen_nonneg _ i); lia). match goal with |- context [doesKeyExist (i ++ [l]) ?a] => change (doesKeyExist (i ++ [l]) a) with (doesKeyExist (i ++ [l]) s1) end. rewrite Fk.
    rewrite sub_last by (rewrite zlen_app, zlen_cons, zlen_nil; pose proof (zlen_nonneg _ i); lia). eexists. reflexivity. }
  destruct G as (s2 & G). unfold make. rewrite bind_eq, G. rewrite G in X. cbn [fst snd] in X. destruct X as (I2 & E2 & _ & _ & X). destruct (X _ eq_refl) as (_ & Hkp & _ & p' & b' & y & Eg' & Ed' & Ey' & Ek & Epub & Epriv & Ec). clear X. rewrite Eg in Eg'. injection Eg' as <-. rewrite Ed in Ed'. injection Ed' as <-. rewrite Ey in Ey'. injection Ey' as <-.
  set (k := i ++ [l]) in *. assert (Rk : removelast k = i) by apply removelast_last. rewrite bind_eq, setKey_eq, Rk. cbv iota. assert (Ex : doesIdentityExist P i s2 = true).
  { unfold doesIdentityExist. rewrite E2. unfold addIdentity. destruct (doesIdentityExist P i s1) eqn:Ex; [exact Ex|]. apply sin_some. cbn. rewrite sget_same. eauto. }
  rewrite Ex. unfold ret at 1. match goal with |- context [set_ids P ?a ?b] => set (s3 := set_ids P a b) end. assert (I3 : inv strict s3) by (apply inv_set_ids; [exact I2|exact Hi|intros k' [= <-]; auto]).
  assert (G3 : sget (keys P s3) (uri k) = Some (t, b, None)) by (cbn; rewrite Ek; apply sget_same). rewrite bind_eq, certTry_eq, G3. cbv iota.
  assert (Ev : c_fromVersion now2 = Ok (c_generic (253 :: nonneg now2))) by (unfold c_fromVersion; apply c_fromMarker_ok; [exact Hn2|unfold is_byte, MARK_VERSION; lia]).
  set (v := c_generic (253 :: nonneg now2)) in *. set (n := self_name i l v). assert (Kn : key_name n k) by (apply self_key_name; exact Nw).
  assert (Bl : bytes_ok (ksk_text ++ str_int T)) by (destruct (plain_stamp true T T0) as [B _]; exact B).
  assert (Bv : bytes_ok (253 :: nonneg now2)) by (constructor; [unfold is_byte; lia|apply TlvDecProofs.nonneg_ok; exact Hn2]).
  assert (Nn : name_ok n).
  { apply Forall_app. split; [exact Ni|]. constructor; [apply generic_ok; apply bytes_okb_ok; reflexivity|]. constructor; [now apply generic_ok|]. constructor; [apply generic_ok; apply bytes_okb_ok; reflexivity|]. constructor; [now apply generic_ok|constructor]. }
  assert (Hpn : plain n).
  { apply Forall_app. split; [exact Hi|]. constructor; [apply plain_generic; apply bytes_okb_ok; reflexivity|]. constructor; [now apply plain_generic|]. constructor; [apply plain_generic; apply bytes_okb_ok; reflexivity|]. constructor; [now apply plain_generic|constructor]. }
  set (c0 := ICert (Data n mi_empty None (SigRsa kl_empty vp_none None)) now2 (now2 + TWO_YEARS) [Subject (IsOid [2; 5; 4; 41]) (uri k)] [] (PK (Some b) (Some t)) (Some k)).
  (* the certificate *)
  assert (Sn : the (id_setName n) cert_new = Ok (ICert (Data n mi_empty None (SigRsa kl_empty vp_none None)) (10 ^ 37) (- 10 ^ 37) [] [] pk_empty (Some k))).
  { destruct (C89_set_name n cert_new) as [_ S]. destruct (S k Kn) as (S1 & _). unfold the. pose proof (set_name_ok n) as Q. unfold the in Q. destruct (id_setName n cert_new) as [c1 r1]. cbn [fst snd] in S1. subst r1. cbn [rbind] in *. destruct (Q c1 eq_refl) as (q & -> & Kq). rewrite (key_name_fun _ _ _ Kq Kn). reflexivity. }
  assert (En : forall sg, sig_ok sg -> encodable load_public (ic_setData c0 (Data n mi_empty None sg)) [([2; 5; 4; 41], uri k)] key b t []).
  { intros sg _. split; [exact Ir1|]. split; [exact Ir2|]. split; [reflexivity|]. pose proof (ascii_uri k Hkp) as A. split; [apply Forall_cons; [|apply Forall_nil]; split; [exists 2, 5, [4; 41]; split; [reflexivity|]; split; [lia|]; split; [lia|]; apply Forall_cons; [lia|]; apply Forall_cons; [lia|]; apply Forall_nil|eapply Forall_impl; [|exact A]; intros a Ha; cbv beta in Ha; unfold is_byte; lia]|].
    split; [apply Forall_cons; [exact A|apply Forall_nil]|]. split; [reflexivity|]. split; [exact Hk|]. split; [reflexivity|apply Forall_nil]. }
  destruct (C89_round_trip load_public floor40 Hfl _ _ _ _ _ _ (En (SigRsa kl_empty vp_none None) (conj Logic.I (or_introl eq_refl)))) as (c1 & bs & E3 & Ebs & _).
  change (ic_setData c0 (Data n mi_empty None (SigRsa kl_empty vp_none None))) with c0 in E3.
  assert (Cf : certificateForKey P load_public floor40 k now2 s3 = Ok c1).
  { unfold certificateForKey, getKey. replace (zlen k =? 0) with false by (unfold k; rewrite zlen_app, zlen_cons, zlen_nil; pose proof (zlen_nonneg _ i); lia). rewrite G3. cbn [rbind]. rewrite Ey. cbn [rbind]. rewrite prefix_last, Rk. cbn [rbind]. unfold k at 1. rewrite MatchProps.last_getitem. cbn [rbind]. rewrite Ev. cbn [rbind]. fold (self_name i l v). fold n. rewrite Sn. cbn [rbind]. rewrite (utf8_ascii _ (ascii_uri k Hkp)). cbn [rbind]. exact E3. }
  assert (D1 : ic_data c1 = Data n (MI 2 (mi_other mi_empty) (mi_freshness mi_empty) (mi_final mi_empty)) (Some bs) (SigRsa kl_empty vp_none None)).
  { revert E3 Ebs. unfold ic_encode. destruct (ic_toDer c0) as [root|]; [|discriminate]. cbn [rbind]. intros [= <-]. cbn. intros [= <-]. reflexivity. }
  assert (Mo : mi_ok (d_meta (ic_data c1))) by (rewrite D1; split; [left; cbn; lia|]; split; [exact Logic.I|apply generic_ok; constructor]).
  assert (Sk : signer_key s3 k t p).
  { split; [eexists; split; [exact Epub|reflexivity]|]. split; [destruct Hk as [_ [(_ & _ & ->)|(_ & ->)]]; lia|exact Epriv]. }
  destruct (Ps (data_signed (Data (d_name (ic_data c1)) (d_meta (ic_data c1)) (d_content (ic_data c1)) (by_key t (removelast n) None)))) as (bits & Hb).
  pose proof (C91_sign psign s3 (ic_data c1) n k t p) as Sg. rewrite D1 in Sg at 1. specialize (Sg Nn Mo Nn Kn Sk bits Hb).
  set (d := Data (d_name (ic_data c1)) (d_meta (ic_data c1)) (d_content (ic_data c1)) (by_key t (removelast n) (Some bits))) in *.
  assert (Dn : d_name d = n) by (subst d; cbn; rewrite D1; reflexivity).
  assert (Ss : selfSign P psign load_public floor40 k now2 s3 = Ok (ic_setData c1 d)) by (unfold selfSign; rewrite Cf; cbn [rbind]; rewrite D1 at 2; cbn [d_name]; rewrite Sg; reflexivity).
  assert (Pn : ic_publicKeyName c1 = Some k) by (destruct (encode_frame _ _ E3) as (Q & _); rewrite Q; reflexivity).
  assert (Dok : data_ok d) by (split; [rewrite Dn; exact Nn|]; split; [exact Mo|apply by_key_ok, name_ok_removelast, Nn]).
  rewrite bind_eq. unfold get. rewrite Ss. rewrite bind_eq. cbn [ic_setData ic_data]. rewrite Dn.
  (* it is stored *)
  assert (Nc : sget (certs P s3) (uri n) = None).
  { destruct (sget (certs P s3) (uri n)) as [w|] eqn:Ew; [|reflexivity]. exfalso. assert (Ew' : sget (certs P s1) (uri n) = Some w) by (rewrite <- Ec; exact Ew). destruct (inv_certs _ _ I1 _ _ Ew') as (n' & q & Hn' & Eu & Kq & Dq). apply uri_inj in Eu; [|exact Hpn|exact Hn']. subst n'. rewrite (key_name_fun _ _ _ Kq Kn) in Dq. apply sin_none in Fk. destruct Dq as [Dq|Dq]; [|contradiction]. unfold k in Dq. destruct i; discriminate Dq. }
  set (w := data_bytes d). assert (Ew : exists o, encodeData d = Ok (w, o)) by (eexists; exact (encodeData_ok d Dok)). destruct Ew as (o & Ew).
  assert (Ad : exists s4, addCertificateAsIdentityDefault P (ic_setData c1 d) s3 = (s4, Ok tt) /\ sget (certs P s4) (uri n) = Some w).
  { unfold addCertificateAsIdentityDefault. rewrite bind_eq. unfold st_addCertificate. cbn [ic_setData ic_publicKeyName ic_data]. rewrite Pn, Dn. unfold bind, lift, get, modify, ret. unfold addKey. replace (zlen k =? 0) with false by (unfold k; rewrite zlen_app, zlen_cons, zlen_nil; pose proof (zlen_nonneg _ i); lia).
    assert (Dk : IdmModel.doesKeyExist P k s3 = true) by (apply sin_some; eauto). rewrite Dk. assert (Dc : doesCertificateExist P n s3 = false) by (apply sin_none; exact Nc). rewrite Dc, Ew. cbn [fst]. rewrite setKey_eq, Rk. match goal with |- context [doesIdentityExist P i ?a] => assert (Di : doesIdentityExist P i a = true) by (apply sin_some; cbn; rewrite sget_same; eauto); rewrite Di end.
    unfold setDefaultCertificateForKey, bind, lift, get, modify. cbn [ic_setData ic_publicKeyName ic_data]. rewrite Pn, Dn. match goal with |- context [IdmModel.doesKeyExist P k ?a] => change (IdmModel.doesKeyExist P k a) with (IdmModel.doesKeyExist P k s3) end. rewrite Dk. cbn [negb]. eexists. split; [reflexivity|].
    unfold setDefaultCertificateNameForKey. match goal with |- context [keys P ?a] => change (keys P a) with (keys P s3) end. rewrite G3. cbn. apply sget_same. }
  destruct Ad as (s4 & -> & Gc). cbn [ret]. exists s4, T, l, v, k, n, d, bits. split; [reflexivity|]. split; [reflexivity|]. split; [exact Ev|]. split; [reflexivity|]. split; [reflexivity|]. split; [exact Dn|].
  split; [subst d; rewrite (signed_by_key _ _ _ (Some bits) None); exact Hb|]. split; [reflexivity|]. intro Small.
  pose proof (C89_wire_round_trip load_public floor40 Hfl _ _ _ _ _ _ (En (by_key t (removelast n) (Some bits)) (by_key_ok _ _ _ (name_ok_removelast _ Nn)))) as W. cbn [ic_setData ic_data d_name d_meta d_sig] in W.
  destruct W as (c' & Ec' & W); [exact Nn|split; [left; cbn; lia|]; split; [exact Logic.I|apply generic_ok; constructor]|apply by_key_ok, name_ok_removelast, Nn|].
  change (ICert (Data n mi_empty None (by_key t (removelast n) (Some bits))) (ic_notBefore c0) (ic_notAfter c0) (ic_subjects c0) (ic_extensions c0) (ic_key c0) (ic_publicKeyName c0)) with (ic_setData c0 (Data n mi_empty None (by_key t (removelast n) (Some bits)))) in Ec'.
  rewrite (encode_any c0 c1 (Data n mi_empty None (by_key t (removelast n) (Some bits))) E3 eq_refl) in Ec'. injection Ec' as <-. cbn [ic_setData ic_data d_name d_sig] in W.
  assert (Dd : Data n (d_meta (ic_data c1)) (d_content (ic_data c1)) (by_key t (removelast n) (Some bits)) = d) by (subst d; rewrite D1; reflexivity). rewrite Dd in W. destruct (W Small cert_new eq_refl eq_refl) as (w' & offs & Ew' & Wd). rewrite Ew in Ew'. injection Ew' as <- <-.
  unfold IdmModel.getCertificate. rewrite Gc. unfold id_wireDecode, mbind. rewrite Wd. unfold setPublicKeyName, mbind, mlift. cbn [ic_data]. change (d_name (data_seen (ic_data cert_new) d)) with (d_name d). rewrite Dn, (proj2 (proj1 (C89_key_name n k)) Kn). reflexivity.
Qed.
End Props.

