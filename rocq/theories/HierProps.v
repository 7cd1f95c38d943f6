(** * Properties C53 (names of keys and certificates) and C54 (simple hierarchy) *)
From Verif Require Import Base BaseLemmas NameModel NameSpec NameProofs TlvModel WireModel CtlModel MatchModel MatchSpec CmdModel CmdSpec CmdProps AnchorSpec ValModel ValSpec ValProps HierModel HierSpec.
From Verif Require CertProofs.
Local Open Scope res_scope.

(** ** C53 *)
Lemma key_valid : c_valid key_comp.
Proof. split; [apply bytes_okb_ok; reflexivity|]. right. split; [right; right; reflexivity|reflexivity]. Qed.
Lemma equals_KEY : forall c, c_valid c -> c_equals c KEY = true <-> c = key_comp.
Proof.
  intros c V. change KEY with key_comp. rewrite (c_equals_iff_key c key_comp V key_valid). split; [|intros ->; reflexivity].
  intros E. assert (X : [c] = [key_comp]); [|injection X; auto]. apply n_valid_key_inj; [constructor; auto|constructor; [apply key_valid|constructor]|]. unfold n_key. cbn [map]. congruence.
Qed.
Lemma split_neg : forall (A : Type) (p q : list A), q <> [] -> zlen (p ++ q) - zlen q = zlen p.
Proof. intros. rewrite zlen_app. lia. Qed.
Lemma getPrefix_app : forall (p q : name), q <> [] -> n_getPrefix (p ++ q) (- zlen q) = Ok p.
Proof.
  intros p q N. rewrite n_getPrefix_ok. assert (0 < zlen q) by (destruct q; [congruence|rewrite zlen_cons; pose proof (zlen_nonneg _ q); lia]).
  replace (- zlen q <? 0) with true by lia. replace (zlen (p ++ q) + - zlen q) with (zlen p) by (rewrite zlen_app; lia).
  unfold zlen. rewrite Nat2Z.id, firstn_app, Nat.sub_diag, firstn_all, firstn_O, app_nil_r. reflexivity.
Qed.
Lemma get4 : forall (p : name) a b c d, py_getitem (p ++ [a; b; c; d]) (-4) = Ok a /\ py_getitem (p ++ [a; b; c; d]) (-3) = Ok b /\ py_getitem (p ++ [a; b; c; d]) (-2) = Ok c.
Proof.
  intros p a b c d. split; [exact (getitem_neg _ p a [b; c; d])|]. split.
  - replace (p ++ [a; b; c; d]) with ((p ++ [a]) ++ b :: [c; d]) by (rewrite <- app_assoc; reflexivity). exact (getitem_neg _ _ b [c; d]).
  - replace (p ++ [a; b; c; d]) with ((p ++ [a; b]) ++ c :: [d]) by (rewrite <- app_assoc; reflexivity). exact (getitem_neg _ _ c [d]).
Qed.
(** isValidName answers whether the name is a certificate name; it never raises. *)
Theorem C53_certificate_name : forall n, Forall c_valid n ->
  exists b, cert_isValidName n = Ok b /\ (b = true <-> exists identity kid issuer version, n = cert_name identity kid issuer version).
Proof.
  intros n V. unfold cert_isValidName. destruct (4 <=? zlen n) eqn:E.
  - destruct (last4 n) as (p & a & b & c & d & ->); [lia|]. destruct (get4 p a b c d) as (-> & _). cbn [rbind]. eexists. split; [reflexivity|].
    apply Forall_app in V. destruct V as [_ V]. inversion V; subst. rewrite equals_KEY by assumption. split.
    + intros ->. exists p, b, c, d. reflexivity.
    + intros (i & k & s & v & X). unfold cert_name in X. apply (f_equal (@rev comp)) in X. rewrite !rev_app_distr in X. cbn in X. injection X as _ _ _ X _. exact X.
  - exists false. split; [reflexivity|]. split; [discriminate|]. intros (i & k & s & v & ->). unfold cert_name in E. rewrite zlen_app in E. pose proof (zlen_nonneg _ i). replace (zlen [key_comp; k; s; v]) with 4 in E by reflexivity. lia.
Qed.
(** The parts of a certificate name *)
Theorem C53_certificate_parts : forall identity kid issuer version, let n := cert_name identity kid issuer version in
  cert_extractIdentity n = Ok identity /\ cert_extractKeyName n = Ok (key_name identity kid) /\
  cert_getIdentity n = Ok identity /\ cert_getKeyName n = Ok (key_name identity kid) /\ cert_getKeyId n = Ok kid /\ cert_getIssuerId n = Ok issuer.
Proof.
  intros p b c d. set (a := key_comp). unfold cert_name. fold a. cbv zeta. destruct (get4 p a b c d) as (G4 & G3 & G2).
  assert (V : cert_isValidName (p ++ [a; b; c; d]) = Ok true).
  { unfold cert_isValidName. replace (4 <=? zlen (p ++ [a; b; c; d])) with true by (rewrite zlen_app; pose proof (zlen_nonneg _ p); replace (zlen [a; b; c; d]) with 4 by reflexivity; lia). rewrite G4. reflexivity. }
  assert (I : n_getPrefix (p ++ [a; b; c; d]) (-4) = Ok p) by (apply (getPrefix_app p [a; b; c; d]); discriminate).
  assert (K : n_getPrefix (p ++ [a; b; c; d]) (-3 + 1) = Ok (p ++ [a; b])).
  { replace (p ++ [a; b; c; d]) with ((p ++ [a; b]) ++ [c; d]) by (rewrite <- app_assoc; reflexivity). apply (getPrefix_app (p ++ [a; b]) [c; d]). discriminate. }
  unfold cert_extractIdentity, cert_extractKeyName, cert_getIdentity, cert_getKeyName, cert_getKeyId, cert_getIssuerId. rewrite V, I, K, G3, G2. cbn [rbind negb]. auto 10.
Qed.
(** Another name is refused. *)
Theorem C53_certificate_refused : forall n, Forall c_valid n -> (forall identity kid issuer version, n <> cert_name identity kid issuer version) ->
  cert_extractIdentity n = Err ValueError /\ cert_extractKeyName n = Err ValueError.
Proof.
  intros n V N. destruct (C53_certificate_name n V) as (b & E & B). unfold cert_extractIdentity, cert_extractKeyName. rewrite E. cbn [rbind].
  destruct b; [exfalso|auto]. destruct (proj1 B eq_refl) as (i & k & s & v & X). eapply N, X.
Qed.
(** Key names: isValidKeyName, and the key of an identity.  The identity must not be empty. *)
Lemma last2 : forall n : name, 2 <= zlen n -> exists p a b, n = p ++ [a; b].
Proof.
  intros n L. destruct (rev n) as [|b [|a q]] eqn:E; apply (f_equal (@rev comp)) in E; rewrite rev_involutive in E; subst n; cbn in L; [lia|lia|].
  exists (rev q), a, b. cbn [rev]. rewrite <- app_assoc. reflexivity.
Qed.
Theorem C53_key_name : forall n, Forall c_valid n ->
  exists b, key_isValid n = Ok b /\ (b = true <-> exists identity kid, identity <> [] /\ n = key_name identity kid).
Proof.
  intros n V. unfold key_isValid. destruct (2 <? zlen n) eqn:E.
  - destruct (last2 n) as (p & a & b & ->); [lia|]. assert (G : py_getitem (p ++ [a; b]) (-2) = Ok a) by exact (getitem_neg _ p a [b]). rewrite G. cbn [rbind]. eexists. split; [reflexivity|].
    apply Forall_app in V. destruct V as [_ V]. inversion V; subst. rewrite equals_KEY by assumption. split.
    + intros ->. exists p, b. split; [|reflexivity]. intros ->. cbn in E. lia.
    + intros (i & k & _ & X). unfold key_name in X. apply (f_equal (@rev comp)) in X. rewrite !rev_app_distr in X. cbn in X. injection X as _ X _. exact X.
  - exists false. split; [reflexivity|]. split; [discriminate|]. intros (i & k & N & ->). unfold key_name in E. rewrite zlen_app in E. replace (zlen [key_comp; k]) with 2 in E by reflexivity.
    destruct i as [|x i]; [congruence|]. rewrite zlen_cons in E. pose proof (zlen_nonneg _ i). lia.
Qed.
Theorem C53_key_construct : forall identity kid, key_construct identity kid = key_name identity kid /\
  (identity <> [] -> key_isValid (key_construct identity kid) = Ok true /\ key_extractIdentity (key_construct identity kid) = Ok identity).
Proof.
  intros i k. assert (E : key_construct i k = key_name i k) by (unfold key_construct, key_name; rewrite <- app_assoc; reflexivity). split; [exact E|]. intros N. rewrite E. unfold key_name.
  assert (V : key_isValid (i ++ [key_comp; k]) = Ok true).
  { unfold key_isValid. replace (2 <? zlen (i ++ [key_comp; k])) with true. 2:{ rewrite zlen_app. replace (zlen [key_comp; k]) with 2 by reflexivity. destruct i as [|x i]; [congruence|]. rewrite zlen_cons. pose proof (zlen_nonneg _ i). lia. }
    assert (G : py_getitem (i ++ [key_comp; k]) (-2) = Ok key_comp) by exact (getitem_neg _ i key_comp [k]). rewrite G. reflexivity. }
  split; [exact V|]. unfold key_extractIdentity. rewrite V. cbn [rbind negb]. apply (getPrefix_app i [key_comp; k]). discriminate.
Qed.
Theorem C53_key_refused : forall n, Forall c_valid n -> (forall identity kid, identity <> [] -> n <> key_name identity kid) -> key_extractIdentity n = Err ValueError.
Proof.
  intros n V N. destruct (C53_key_name n V) as (b & E & B). unfold key_extractIdentity. rewrite E. cbn [rbind]. destruct b; [exfalso|auto].
  destruct (proj1 B eq_refl) as (i & k & X & Y). eapply N; eassumption.
Qed.
(** A certificate name of the empty identity is valid, and so is its key name by
    extractKeyNameFromCertName, but isValidKeyName refuses that key name, and so does
    extractIdentityFromKeyName. *)
Theorem C53_root_identity_refuted : ~ (forall n k, cert_extractKeyName n = Ok k -> exists i, key_extractIdentity k = Ok i).
Proof.
  intros X. destruct (X (cert_name [] key_comp key_comp key_comp) (key_name [] key_comp)) as [i E]; [reflexivity|]. discriminate E.
Qed.
(** The identity of the key name is the identity of the certificate, for a non-empty identity. *)
Theorem C53_identities : forall n k, Forall c_valid n -> cert_extractKeyName n = Ok k -> 4 < zlen n -> key_extractIdentity k = cert_extractIdentity n.
Proof.
  intros n k V E L. destruct (C53_certificate_name n V) as (b & Eb & B). destruct b; [|unfold cert_extractKeyName in E; rewrite Eb in E; discriminate E].
  destruct (proj1 B eq_refl) as (i & kid & s & v & ->). destruct (C53_certificate_parts i kid s v) as (E1 & E2 & _). cbv zeta in E1, E2. rewrite E2 in E. injection E as <-. rewrite E1.
  destruct (C53_key_construct i kid) as [<- X]. apply X. intros ->. cbn in L. lia.
Qed.
(** CertificateV2(data) and wireDecode accept exactly the Data with a certificate name, the type
    KEY, a freshness period and some content. *)
Theorem C53_format : forall d, Forall c_valid (d_name d) ->
  (cert_checkFormat d = Ok tt <-> (exists identity kid issuer version, d_name d = cert_name identity kid issuer version) /\ mi_type (d_meta d) = 2 /\
     (exists f, mi_freshness (d_meta d) = Some f /\ 0 <= f) /\ exists b v, d_content d = Some (b :: v)).
Proof.
  intros d V. unfold cert_checkFormat. destruct (C53_certificate_name _ V) as (b & -> & B). cbn [rbind]. destruct b; cbn [negb].
  2:{ split; [discriminate|]. intros (X & _). apply B in X. discriminate X. }
  assert (N : exists identity kid issuer version, d_name d = cert_name identity kid issuer version) by (apply B; reflexivity).
  destruct (mi_type (d_meta d) =? 2) eqn:Et; cbn [negb]; [|split; [discriminate|intros (_ & X & _); lia]].
  destruct (mi_freshness (d_meta d)) as [f|] eqn:Ef; [|split; [discriminate|intros (_ & _ & (f & X & _) & _); discriminate X]].
  destruct (f <? 0) eqn:E0; [split; [discriminate|intros (_ & _ & (f' & X & Y) & _); injection X as <-; lia]|].
  unfold blob_size. destruct (d_content d) as [[|x v]|] eqn:Ec.
  - split; [discriminate|]. intros (_ & _ & _ & b & v & X). discriminate X.
  - replace (zlen (x :: v) =? 0) with false by (rewrite zlen_cons; pose proof (zlen_nonneg _ v); lia). split; [|reflexivity]. intros _. split; [exact N|]. split; [lia|]. split; [exists f; split; [reflexivity|lia]|]. eauto.
  - split; [discriminate|]. intros (_ & _ & _ & b & v & X). discriminate X.
Qed.
(** ... but a missing freshness period raises TypeError, not CertificateV2.Error. *)
Theorem C53_freshness_refuted : ~ (forall d, cert_checkFormat d = Ok tt \/ cert_checkFormat d = Err OtherError).
Proof.
  intros X. destruct (X (Data (cert_name [] key_comp key_comp key_comp) (MI 2 (-1) None (c_generic [])) (Some [1]) (SigDigest None))) as [E|E]; vm_compute in E; discriminate E.
Qed.

(** ** C54 *)
Lemma locator_iff : forall p k, p_locator p = Some k <-> located p k.
Proof.
  intros [d|n] k; cbn [p_locator located]; [apply sig_keyName_iff|]. unfold keyLocatorName. destruct (zlen n <? 2) eqn:E.
  - split; [discriminate|]. intros (q & a & b & s & -> & _). rewrite zlen_app in E. pose proof (zlen_nonneg _ q). replace (zlen [a; b]) with 2 in E by reflexivity. lia.
  - destruct (last2 n) as (p & c & d & ->); [lia|].
    assert (G2 : py_getitem (p ++ [c; d]) (-2) = Ok c) by exact (getitem_neg _ p c [d]).
    assert (G1 : py_getitem (p ++ [c; d]) (-1) = Ok d) by (replace (p ++ [c; d]) with ((p ++ [c]) ++ d :: []) by (rewrite <- app_assoc; reflexivity); exact (getitem_neg _ _ d [])).
    rewrite G2, G1. cbn [rbind]. split.
    + destruct (decodeSignatureInfoAndValue (c_value c) (c_value d)) as [s|e] eqn:Ed; [|discriminate]. intros Ek. exists p, c, d, s. split; [reflexivity|]. split; [exact Ed|]. apply sig_keyName_iff. exact Ek.
    + intros (q & a & b & s & X & Ed & L). apply (f_equal (@rev comp)) in X. rewrite !rev_app_distr in X. cbn in X. injection X as -> -> _. rewrite Ed. apply sig_keyName_iff. exact L.
Qed.
Lemma located_fun : forall p k k', located p k -> located p k' -> k = k'.
Proof. intros p k k' H1 H2. apply locator_iff in H1. apply locator_iff in H2. congruence. Qed.
Lemma prefix2 : forall k, exists q, n_getPrefix k (-2) = Ok q /\ vals q = without2 (vals k).
Proof.
  intros k. rewrite n_getPrefix_ok. eexists. split; [reflexivity|]. unfold vals, without2. rewrite map_length, firstn_map. f_equal. replace (-2 <? 0) with true by reflexivity. f_equal. unfold zlen. lia.
Qed.
(** The policy asks for the certificate of the key locator exactly if the name of the packet
    begins with the key locator without its last two components; otherwise it fails.  It never
    raises and never accepts a packet without a certificate. *)
Theorem C54_policy : forall cbp p,
  (exists k, located p k /\ prefix (without2 (vals k)) (vals (p_name p)) /\ hier_check cbp p = VContinue (Some (i_ofName cbp k))) \/
  ((forall k, located p k -> ~ prefix (without2 (vals k)) (vals (p_name p))) /\ hier_check cbp p = VFail).
Proof.
  intros cbp p. unfold hier_check. destruct (p_locator p) as [k|] eqn:E.
  - apply locator_iff in E. destruct (prefix2 k) as (q & Eq & Vq). rewrite Eq. unfold n_isPrefixOf. destruct (n_match q (p_name p)) eqn:Em.
    + left. exists k. split; [exact E|]. split; [|reflexivity]. apply n_match_iff in Em. rewrite <- Vq. exact Em.
    + right. split; [|reflexivity]. intros k' L X. assert (k' = k) by (eapply located_fun; eassumption). subst k'. rewrite <- Vq in X. apply n_match_iff in X. congruence.
  - right. split; [|reflexivity]. intros k L. apply locator_iff in L. congruence.
Qed.
Lemma pol_inv : forall cbp p o, hier_pol cbp p = VContinue o -> exists k r, o = Some r /\ proj1_sig r = i_ofName cbp k /\ located p k /\ prefix (without2 (vals k)) (vals (p_name p)).
Proof.
  intros cbp p o E. unfold hier_pol in E. destruct (C54_policy cbp p) as [(k & L & X & V)|[_ V]]; rewrite V in E; [|discriminate E].
  destruct (Bool.bool_dec (n_validb (i_name (i_ofName cbp k))) true) as [h|h]; [|discriminate E]. injection E as <-. exists k, (exist _ (i_ofName cbp k) h). auto.
Qed.
Lemma equals_vals : forall a b, n_equals a b = true -> vals a = vals b.
Proof.
  induction a as [|x a IH]; intros [|y b] E; cbn [n_equals] in E; try discriminate E; [reflexivity|]. apply andb_true_iff in E. destruct E as [E1 E2]. cbn. f_equal; [|apply IH; exact E1].
  unfold c_equals, blob_equals in E2. destruct (zlist_eqb (c_value x) (c_value y)) eqn:Z; [apply zlist_eqb_eq; exact Z|]. exfalso. revert E2. rewrite ?Bool.andb_false_r, ?Bool.andb_false_l. destruct (c_type x =? CT_OTHER); cbn; rewrite ?Bool.andb_false_r; cbn; discriminate.
Qed.
Lemma matches_linked : forall sha cbp k (r : vreq) (c : vcert), proj1_sig r = i_ofName cbp k -> vmatches sha r c = true ->
  prefix (vals k) (vals (d_name (proj1_sig c))) \/ exists digest, vals k = vals (d_name (proj1_sig c)) ++ [digest].
Proof.
  intros sha cbp k r c Er M. unfold vmatches in M. rewrite Er in M. set (d := proj1_sig c) in *. unfold i_matchesData in M. cbn [i_name i_min i_max i_exclude i_keyLocator i_ofName] in M.
  destruct (negb (zlen k + 0 <=? zlen (d_name d) + 1)); [discriminate M|]. destruct (match (if cbp then None else Some 1) with Some m => negb (zlen (d_name d) + 1 <=? zlen k + m) | None => false end); [discriminate M|].
  destruct (zlen k =? zlen (d_name d) + 1).
  - destruct (py_getitem k (-1)) as [l|e]; cbn [rbind] in M; [|discriminate M]. destruct (c_type l =? CT_IMPLICIT); [|discriminate M].
    destruct (d_fullName sha d) as [full|e] eqn:Ef; cbn [rbind] in M; [|discriminate M]. destruct (n_equals k full) eqn:En; [|discriminate M]. right.
    unfold d_fullName in Ef. destruct (encodeData d) as [w|e]; cbn [rbind] in Ef; [|discriminate Ef]. destruct (c_fromImplicitSha256Digest (sha (fst w))) as [x|e]; cbn [rbind] in Ef; [|discriminate Ef]. injection Ef as <-.
    apply equals_vals in En. exists (c_value x). rewrite En. unfold vals. rewrite map_app. reflexivity.
  - cbn [rbind] in M. destruct (n_match k (d_name d)) eqn:En; [|discriminate M]. left. apply n_match_iff. exact En.
Qed.
Lemma validb_ok : forall n, n_validb n = true -> Forall c_valid n.
Proof.
  induction n as [|c n IH]; intros E; [constructor|]. cbn [n_validb forallb] in E. apply andb_true_iff in E. destruct E as [E1 E2]. constructor; [|apply IH; exact E2].
  unfold c_validb in E1. apply andb_true_iff in E1. destruct E1 as [Eb E1]. split; [apply bytes_okb_ok; exact Eb|].
  apply orb_true_iff in E1. destruct E1 as [E1|E1].
  - left. repeat (apply andb_true_iff in E1; destruct E1 as [E1 ?]). rewrite negb_true_iff in *. lia.
  - right. apply andb_true_iff in E1. destruct E1 as [E1 E3]. split; [|lia]. rewrite !orb_true_iff in E1. destruct E1 as [[E1|E1]|E1]; apply Z.eqb_eq in E1; auto.
Qed.

Section Hier.
Variable sha256 : bytes -> bytes.
Variable period : data -> res (Z * Z).
Variable verify : packet -> data -> res bool.
Variable express : nat -> vreq -> option exn.
Variable files : nat -> Z -> res (list (option vcert)).
Variable online cbp : bool.
Variable maxDepth : Z.
Notation hrun := (hier_run sha256 period verify express files online cbp maxDepth).
Notation chain_to := (chain_to verify).
Variable H : list (@event packet vcert).
Hypothesis Nr : forall id n, In (EAnchor (TRemove id n)) H -> Forall c_valid n.
Notation root := (root files H).
Notation hpol := (fun (_ : nat) (p : packet) => hier_pol cbp p).
Notation hpolc := (fun (_ : nat) (c : vcert) => hier_pol cbp (PData (proj1_sig c))).
Notation trusted := (trusted (vperiod period) vcheck (vmatches sha256) (vverc verify) hpolc files H).
Notation signed := (signed (vperiod period) vcheck (vmatches sha256) (vverc verify) hpolc files H).

(** a certificate that is a root, or has a chain from a root *)
Definition reach (c : vcert) : Prop := root c \/ exists a chain, root a /\ chain_to (proj1_sig a) chain (PData (proj1_sig c)).
Lemma chain_app : forall ch1 a c ch2 p, chain_to a ch1 (PData c) -> chain_to c ch2 p -> chain_to a (ch1 ++ c :: ch2) p.
Proof. induction ch1 as [|x ch1 IH]; intros a c ch2 p H1 H2; cbn in *; [auto|]. destruct H1. split; [assumption|]. apply IH; assumption. Qed.
Lemma reach_to : forall c ch p, reach c -> chain_to (proj1_sig c) ch p -> exists a chain, root a /\ chain_to (proj1_sig a) chain p.
Proof. intros c ch p [R|(a & ch1 & R & X)] Y; [exists c, ch; auto|]. exists a, (ch1 ++ proj1_sig c :: ch). split; [exact R|]. apply chain_app; assumption. Qed.
Lemma accepted_inv : forall k c r, accepted (vperiod period) vcheck hpolc H k c r -> exists kl, proj1_sig r = i_ofName cbp kl /\ located (PData (proj1_sig c)) kl /\ prefix (without2 (vals kl)) (vals (d_name (proj1_sig c))).
Proof.
  intros k c r (j & e & now & nb & na & _ & _ & _ & E & _). apply pol_inv in E. destruct E as (kl & r' & E & Er & L & X). injection E as <-. exists kl. auto.
Qed.
Lemma link_one : forall k c r t, accepted (vperiod period) vcheck hpolc H k c r -> vmatches sha256 r t = true -> vverc verify c t = Ok true -> one verify (proj1_sig t) (PData (proj1_sig c)).
Proof.
  intros k c r t A M V. destruct (accepted_inv k c r A) as (kl & Er & L & X). split; [exact V|]. exists kl. split; [exact L|]. split; [|exact X]. eapply matches_linked; eassumption.
Qed.
Lemma signed_reach : forall j c t e r, nth_error H j = Some e -> accepted (vperiod period) vcheck hpolc H (S j) c r -> vmatches sha256 r t = true -> vverc verify c t = Ok true -> reach t -> reach c.
Proof. intros j c t e r N A M V R. right. eapply (reach_to t [] _ R). cbn [HierSpec.chain_to]. eapply link_one; eassumption. Qed.
Fixpoint trusted_reach k now c (T : trusted k now c) {struct T} : (k <= length H)%nat -> reach c
with from_signed j now c (S : signed j now c) {struct S} : reach c.
Proof.
  - destruct T as [k now c A|k now j now' c nb na L _ N _ _ _ _|k now j now' c nb na L _ S _ _ _ _]; intros Lk.
    + left. left. exists k. auto.
    + left. right. exists now'. eapply nth_error_In. exact N.
    + exact (from_signed j now' c S).
  - destruct S as [j e now c r t N _ A M V R]. apply (signed_reach j c t e r N A M V). destruct R as [R|R].
    + apply (trusted_reach _ _ _ R). apply nth_error_Some. congruence.
    + exact (from_signed _ _ _ R).
Qed.
Lemma signs_chain : forall k j0 chain r rs p rt, chased (vperiod period) vcheck (vmatches sha256) hpol hpolc H k j0 chain (r :: rs) -> vmatches sha256 r rt = true ->
  (exists now, nth_error H j0 = Some (EValidate now p)) -> signs (vver verify) (vverc verify) rt chain p -> chain_to (proj1_sig rt) (map (@proj1_sig _ _) chain) p.
Proof.
  intros k j0 chain. induction chain as [|c chain IH]; intros r rs p rt Ch M (now & E0) S.
  - inversion Ch; subst. rewrite E0 in *. match goal with X : Some _ = Some _ |- _ => injection X as <- <- end. cbn [map chain_to signs] in *.
    match goal with X : hier_pol _ _ = _ |- _ => apply pol_inv in X; destruct X as (kl & r' & Eo & Er & L & Y) end. injection Eo as <-. split; [exact S|]. exists kl. split; [exact L|]. split; [|exact Y]. eapply matches_linked; eassumption.
  - inversion Ch; subst. cbn [map signs] in *. destruct S as [S1 S2]. cbn [HierSpec.chain_to]. split; [eapply link_one; eassumption|]. eapply IH; eauto.
Qed.
(** Every packet that was accepted has a chain of certificates from a root, with good signatures
    and key locators that link the names. *)
Theorem C54_chain : forall i, In (i, Success) (w_log (hrun H)) ->
  exists j now p a chain, nth_error H j = Some (EValidate now p) /\ starts H j = i /\ root a /\ chain_to (proj1_sig a) chain p.
Proof.
  intros i Ii. apply (C42_sound _ _ _ _ _ _ _ _ _ _ _ _ _) in Ii; [|intros c; apply validb_ok, (proj2_sig c)|intros r; apply validb_ok, (proj2_sig r)|exact Nr].
  destruct Ii as (j0 & now0 & p & L0 & E0 & St & [B|(j & e & now & chain & r & rs & rt & Lj & Ej & Te & Ch & _ & _ & M & S & T)]).
  - apply pol_inv in B. destruct B as (k & r & B & _). discriminate B.
  - assert (R : reach rt) by (eapply trusted_reach; [exact T|lia]). destruct (reach_to rt (map (@proj1_sig _ _) chain) p R) as (a & ch & Ra & X); [eapply signs_chain; eauto|].
    exists j0, now0, p, a, ch. auto.
Qed.
End Hier.

(** In a well-formed deployment the identity of the root is a prefix of the name of the packet. *)
Lemma first_key : forall (a b : list bytes) x y, ~ In KEYv a -> ~ In KEYv b -> a ++ KEYv :: x = b ++ KEYv :: y -> a = b /\ x = y.
Proof.
  induction a as [|u a IH]; intros [|v b] x y Na Nb E; cbn in E.
  - injection E as <-. auto.
  - injection E as <- _. exfalso. apply Nb. left. reflexivity.
  - injection E as -> _. exfalso. apply Na. left. reflexivity.
  - injection E as <- E. destruct (IH b x y) as [-> ->]; [intros X; apply Na; right; exact X|intros X; apply Nb; right; exact X|exact E|auto].
Qed.
Lemma without2_app : forall (A : Type) (l : list A) a b, without2 (l ++ [a; b]) = l.
Proof. intros A l a b. unfold without2. rewrite app_length. cbn [length]. replace (length l + 2 - 2)%nat with (length l) by lia. rewrite firstn_app, Nat.sub_diag, firstn_all, firstn_O. apply app_nil_r. Qed.
Lemma one_authority : forall verify a q ida, one verify a q -> cert_of ida (d_name a) -> (forall k, located q k -> exists id, locator_of id k) -> prefix ida (vals (p_name q)).
Proof.
  intros verify a q ida (_ & k & L & Lk & Px) (kid & iss & v & Ea & Na) W. destruct (W k L) as (id & kk & Ek & Nk). rewrite Ek, without2_app in Px. rewrite Ek, Ea in Lk.
  assert (id = ida); [|subst; exact Px]. destruct Lk as [[s E]|[dg E]].
  - rewrite <- app_assoc in E. cbn [app] in E. symmetry in E. apply first_key in E; tauto.
  - rewrite <- app_assoc in E. cbn [app] in E. apply first_key in E; [|assumption..]. tauto.
Qed.
Lemma prefix_no_key : forall (a b : list bytes) x, ~ In KEYv a -> prefix a (b ++ KEYv :: x) -> prefix a b.
Proof.
  induction a as [|u a IH]; intros b x N [s E]; [exists b; reflexivity|]. destruct b as [|v b]; cbn [app] in E; injection E as E1 E; [exfalso; apply N; left; symmetry; exact E1|]. subst v.
  destruct (IH b x) as [t ->]; [intros X; apply N; right; exact X|exists s; exact E|]. exists t. reflexivity.
Qed.
Lemma chain_authority : forall verify chain a p ida, chain_to verify a chain p -> well_formed a chain p -> cert_of ida (d_name a) -> prefix ida (vals (p_name p)).
Proof.
  intros verify. induction chain as [|c chain IH]; intros a p ida Ch [Wc Wl] Ca.
  - eapply one_authority; [exact Ch|exact Ca|]. intros k L. apply (Wl p k); [left; reflexivity|exact L].
  - destruct Ch as [O Ch]. destruct (Wc c) as [idc Cc]; [right; left; reflexivity|].
    assert (X : prefix ida (vals (d_name c))) by (apply (one_authority verify a (PData c) ida O Ca); intros k L; apply (Wl (PData c) k); [right; left; reflexivity|exact L]).
    assert (Y : prefix idc (vals (p_name p))).
    { apply (IH c p idc Ch); [|exact Cc]. split; [intros d D; apply Wc; right; exact D|]. intros q k [<-|Iq] L; [apply (Wl p k); [left; reflexivity|exact L]|]. apply (Wl q k); [right; right; exact Iq|exact L]. }
    destruct Ca as (kid & iss & v & Ea & Na). destruct Cc as (kid' & iss' & v' & Ec & Nc). rewrite Ec in X. apply prefix_no_key in X; [|exact Na]. destruct X as [s ->]. destruct Y as [t E]. exists (s ++ t). rewrite app_assoc. exact E.
Qed.
Theorem C54_authority : forall sha256 period verify express files online cbp maxDepth H, (forall id n, In (EAnchor (TRemove id n)) H -> Forall c_valid n) ->
  forall i, In (i, Success) (w_log (hier_run sha256 period verify express files online cbp maxDepth H)) ->
  exists j now p a chain, nth_error H j = Some (EValidate now p) /\ starts H j = i /\ root files H a /\ chain_to verify (proj1_sig a) chain p /\
    (well_formed (proj1_sig a) chain p -> exists identity, cert_of identity (d_name (proj1_sig a)) /\ prefix identity (vals (p_name p))).
Proof.
  intros sha256 period verify express files online cbp maxDepth H Nr i Ii. destruct (C54_chain sha256 period verify express files online cbp maxDepth H Nr i Ii) as (j & now & p & a & chain & E & St & R & Ch).
  exists j, now, p, a, chain. split; [exact E|]. split; [exact St|]. split; [exact R|]. split; [exact Ch|]. intros W. destruct (proj1 W (proj1_sig a)) as [ida Ca]; [left; reflexivity|]. exists ida. split; [exact Ca|]. eapply chain_authority; eassumption.
Qed.

(** ** Examples, and what does not hold *)
Definition g (l : list Z) : comp := c_generic l.
Definition mksig (k : name) : signature := SigRsa (KL (Some 1) k None) vp_none (Some [1]).
Definition mkcert (n k : name) : data := Data n (MI 2 (-1) (Some 1000) (c_generic [])) (Some [1]) (mksig k).
Definition exrun (h : list (@event packet vcert)) : world :=
  hier_run (fun _ => repeat 0 32) (fun _ => Ok (0, 1000)) (fun _ _ => Ok true) (fun _ _ => None) (fun _ _ => Ok []) true true 25 h.
(** the trust anchor of /a, a certificate of /a/b signed by it, and a packet /a/b/x *)
Definition exa : vcert := exist _ (mkcert (cert_name [g [97]] (g [1]) (g [2]) (g [3])) (key_name [g [97]] (g [1]))) eq_refl.
Definition exb : vcert := exist _ (mkcert (cert_name [g [97]; g [98]] (g [1]) (g [2]) (g [3])) (key_name [g [97]] (g [1]))) eq_refl.
Definition exp : packet := PData (Data [g [97]; g [98]; g [120]] mi_empty None (mksig (key_name [g [97]; g [98]] (g [1])))).
Definition exh : list (@event packet vcert) := [EAnchor (TInsert 0 exa); EValidate 10 exp; EData 20 0 exb].
Example C54_ex_accepts : w_log (exrun exh) = [(0%nat, Success)].
Proof. vm_compute. reflexivity. Qed.
(** a packet of another name is refused *)
Example C54_ex_refuses : w_log (exrun [EAnchor (TInsert 0 exa); EValidate 10 (PData (Data [g [99]; g [120]] mi_empty None (mksig (key_name [g [97]] (g [1])))))]) = [(0%nat, Failure)].
Proof. vm_compute. reflexivity. Qed.
Lemma exloc : forall d k0 k, sig_keyName (d_sig d) = Some k0 -> located (PData d) k -> k = k0.
Proof. intros d k0 k E L. apply locator_iff in L. cbn [p_locator] in L. congruence. Qed.
Example C54_ex_well_formed : well_formed (proj1_sig exa) [proj1_sig exb] exp /\ chain_to (fun _ _ => Ok true) (proj1_sig exa) [proj1_sig exb] exp.
Proof.
  split; [split|].
  - intros c [<-|[<-|[]]].
    + exists [[97]], [1], [2], [3]. split; [reflexivity|]. intros [X|[]]; discriminate X.
    + exists [[97]; [98]], [1], [2], [3]. split; [reflexivity|]. intros [X|[X|[]]]; discriminate X.
  - intros q k [<-|[<-|[]]] L.
    + assert (k = key_name [g [97]; g [98]] (g [1])) by (eapply exloc; [|exact L]; reflexivity). subst k. exists [[97]; [98]], [1]. split; [reflexivity|]. intros [X|[X|[]]]; discriminate X.
    + assert (k = key_name [g [97]] (g [1])) by (eapply exloc; [|exact L]; reflexivity). subst k. exists [[97]], [1]. split; [reflexivity|]. intros [X|[]]; discriminate X.
  - cbn [chain_to]. split; (split; [reflexivity|]); eexists; (split; [apply locator_iff; reflexivity|]); (split; [left|]).
    + exists [[2]; [3]]. reflexivity.
    + eexists. reflexivity.
    + exists [[2]; [3]]. reflexivity.
    + eexists. reflexivity.
Qed.
(** A key locator of fewer than three components constrains nothing: the trust anchor of /b signs
    a packet /a/x, with the key locator /b. *)
Definition exc : vcert := exist _ (mkcert (cert_name [g [98]] (g [1]) (g [2]) (g [3])) (key_name [g [98]] (g [1]))) eq_refl.
Definition authority_claim : Prop :=
  forall a p identity, cert_of identity (d_name (proj1_sig a)) -> w_log (exrun [EAnchor (TInsert 0 a); EValidate 10 p]) = [(0%nat, Success)] -> prefix identity (vals (p_name p)).
Theorem C54_short_locator_refuted : ~ authority_claim.
Proof.
  intros X. destruct (X exc (PData (Data [g [97]; g [120]] mi_empty None (mksig [g [98]]))) [[98]]) as [s E].
  - exists [1], [2], [3]. split; [reflexivity|]. intros [Y|[]]; discriminate Y.
  - vm_compute. reflexivity.
  - discriminate E.
Qed.
(** An identity inside a key name: the certificate /a/KEY/1/z/KEY/2/3/4 of the identity
    /a/KEY/1/z signs a packet /a/x, with the key locator /a/KEY/1. *)
Definition exn : vcert := exist _ (mkcert (cert_name [g [97]; key_comp; g [1]; g [122]] (g [2]) (g [3]) (g [4])) (key_name [g [97]] (g [1]))) eq_refl.
Theorem C54_nested_refuted : ~ (forall a p identity kid issuer version, d_name (proj1_sig a) = cert_name identity kid issuer version ->
  (forall k, located p k -> exists id, locator_of id k) -> w_log (exrun [EAnchor (TInsert 0 a); EValidate 10 p]) = [(0%nat, Success)] -> prefix (vals identity) (vals (p_name p))).
Proof.
  intros X. destruct (X exn (PData (Data [g [97]; g [120]] mi_empty None (mksig (key_name [g [97]] (g [1]))))) _ _ _ _ eq_refl) as [s E].
  - intros k L. assert (k = key_name [g [97]] (g [1])) by (eapply exloc; [|exact L]; reflexivity). subst k. exists [[97]], [1]. split; [reflexivity|]. intros [Y|[]]; discriminate Y.
  - vm_compute. reflexivity.
  - discriminate E.
Qed.

Print Assumptions C53_certificate_name.
Print Assumptions C53_certificate_parts.
Print Assumptions C53_certificate_refused.
Print Assumptions C53_key_name.
Print Assumptions C53_key_construct.
Print Assumptions C53_key_refused.
Print Assumptions C53_root_identity_refuted.
Print Assumptions C53_identities.
Print Assumptions C53_format.
Print Assumptions C53_freshness_refuted.
Print Assumptions C54_policy.
Print Assumptions C54_chain.
Print Assumptions C54_authority.
Print Assumptions C54_short_locator_refuted.
Print Assumptions C54_nested_refuted.
