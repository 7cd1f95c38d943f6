(** * C89: version 1 certificates *)
From Verif Require Import Base BaseLemmas NameModel NameSpec NameProofs UriModel UriProofs CalModel CalProofs BlobModel DerModel DerSpec DerProofs DerProofs2 DerProps PkcsModel PkcsProps TlvSpec WireModel WireSpec WireProps IcertModel IcertSpec.
From Coq Require Import Arith Lia ZifyBool.
Local Open Scope res_scope.

(** ** One encoding for each value *)
Lemma leaf_fun v c c' : leaf_content v c -> leaf_content v c' -> c = c'.
Proof.
  destruct v; cbn [leaf_content]; intros H H'; try congruence.
  - rewrite <- (int_fun _ _ H). now apply int_fun.
  - destruct H, H'; congruence.
  - destruct H, H'; congruence.
  - pose proof (oid_fun _ _ H) as A. rewrite (oid_fun _ _ H') in A. congruence.
  - destruct H, H'; congruence.
  - destruct H, H'; congruence.
  - destruct H.
Qed.
Lemma rep_bytes : forall n v n', rep n v -> rep n' v -> tbytes n = tbytes n'.
Proof.
  intro n. induction n as [t h p|h s c l IH] using node_ind2; intros v n' R R'.
  - destruct n' as [t' h' p'|h' s' c' l'].
    + destruct R as (-> & -> & L), R' as (-> & -> & L'). now rewrite (leaf_fun _ _ _ L L').
    + apply rep_seq in R'. destruct R' as (vl & -> & _). destruct R as (_ & _ & []).
  - apply rep_seq in R. destruct R as (vl & -> & _ & F). destruct n' as [t' h' p'|h' s' c' l']; [destruct R' as (_ & _ & [])|].
    apply rep_seq in R'. destruct R' as (vl' & E & _ & F'). injection E as <-. cbn [tbytes]. rewrite !sum_bytes.
    replace (concat (map tbytes l')) with (concat (map tbytes l)); [reflexivity|]. clear h s c h' s' c'. revert vl F l' F'. induction IH as [|x l Hx _ IH]; intros vl F l' F'; inversion F; subst; inversion F'; subst; [reflexivity|].
    cbn [map concat]. erewrite Hx by eassumption. f_equal. eapply IH; eassumption.
Qed.
Lemma der_bytes : forall n v bs, rep n v -> der v bs -> tbytes n = bs.
Proof.
  intros n v bs R D. destruct (parse_ok v (length bs) bs [] D (le_n _)) as (n' & _ & R' & <-). exact (rep_bytes _ _ _ R R').
Qed.

(** ** Encoding *)
Lemma empty_rep : rep (Seq [] 0 false []) (VSeq []).
Proof. apply rep_seq. exists []. split; [reflexivity|]. split; [reflexivity|constructor]. Qed.
Lemma add_rep n l c w : rep n (VSeq l) -> rep c w -> rep (addChild n c) (VSeq (l ++ [w])).
Proof. intros R Rc. exact (addChild_rep n _ c w R Rc). Qed.
Lemma oid_rep l : oid_ok l -> exists n, der_oid l = Ok n /\ rep n (VOid l).
Proof. intros (a & b & r & -> & Ha & Hb & Hr). destruct (oid_is a b r Ha Hb Hr) as (c & E & I). unfold der_oid. rewrite E. cbn [rbind]. eexists. split; [reflexivity|]. cbn [rep tag leaf_content]. auto. Qed.
Lemma add_all_ok {A} (f : A -> res node) (g : A -> value) l : Forall (fun x => exists n, f x = Ok n /\ rep n (g x)) l ->
  forall parent vs, rep parent (VSeq vs) -> exists n, add_all f l parent = Ok n /\ rep n (VSeq (vs ++ map g l)).
Proof.
  induction 1 as [|x l (n & E & R) _ IH]; intros parent vs Rp; [exists parent; rewrite app_nil_r; auto|]. cbn [add_all map]. rewrite E. cbn [rbind].
  destruct (IH _ _ (add_rep _ _ _ _ Rp R)) as (n' & E' & R'). exists n'. rewrite <- app_assoc in R'. auto.
Qed.
Lemma time_rep ms : iso_range (ms / 1000) -> exists n p, der_time ms = Ok n /\ rep n (VTime p) /\ time_toVal p = Ok (ms / 1000 * 1000) /\ toDerTimeString ms = Ok p.
Proof.
  intro H. destruct (C61_time ms H) as (p & E & _ & B & V). unfold der_time. rewrite E. cbn [rbind]. eexists. exists p. split; [reflexivity|]. split; [|auto]. cbn [rep tag leaf_content]. auto.
Qed.

Section Cert.
Variable load_public : bytes -> res unit.
Variable floor40 : Z -> Z.
Hypothesis Hfl : floor_ok floor40.
Notation ic_decode := (ic_decode load_public floor40). Notation pk_new := (pk_new load_public floor40).

(** The content is the DER encoding of the certificate and the content type is KEY; nothing else
    is changed. *)
Theorem C89_encode : forall c subjects key keyDer extensions,
  iso_range (ic_notBefore c / 1000) -> iso_range (ic_notAfter c / 1000) -> ic_subjects c = map to_subject subjects -> Forall subject_ok subjects ->
  pk_der (ic_key c) = Some keyDer -> der key keyDer -> ic_extensions c = map to_extension extensions -> Forall extension_ok extensions ->
  exists notBefore notAfter bs, toDerTimeString (ic_notBefore c) = Ok notBefore /\ toDerTimeString (ic_notAfter c) = Ok notAfter /\
    (zlen bs < 2 ^ 64 -> der (cert_value notBefore notAfter subjects key extensions) bs) /\
    ic_encode c = Ok (ic_setData c (let d := ic_data c in Data (d_name d) (MI 2 (mi_other (d_meta d)) (mi_freshness (d_meta d)) (mi_final (d_meta d))) (Some bs) (d_sig d))).
Proof.
  intros c subs key kd exts Hb Ha Es Fs Ek Dk Ee Fe.
  destruct (time_rep _ Hb) as (nb & pb & Enb & Rnb & _ & Tb). destruct (time_rep _ Ha) as (na & pa & Ena & Rna & _ & Ta). exists pb, pa.
  destruct (add_all_ok sd_toDer (fun s => match sd_oid s with IsOid l => VSeq [VOid l; VString (sd_value s)] | NotOid _ => VNull end) (ic_subjects c)) with (parent := Seq [] 0 false []) (vs := @nil value) as (sl & Esl & Rsl).
  { rewrite Es. apply Forall_map. apply Forall_forall. intros s Hs. rewrite Forall_forall in Fs. destruct (Fs s Hs) as [Ho Hv]. destruct (oid_rep _ Ho) as (n & E & R). unfold sd_toDer. cbn [to_subject sd_oid sd_value oid_node]. rewrite E. cbn [rbind]. eexists. split; [reflexivity|].
    apply (add_rep _ [VOid (fst s)]); [apply (add_rep _ []); [apply empty_rep|exact R]|]. cbn [rep tag leaf_content der_byteString]. auto. }
  { apply empty_rep. }
  destruct (parse_ok key (length kd) kd [] Dk (le_n _)) as (kn & Ekn & Rkn & _). rewrite app_nil_r in Ekn.
  assert (Hroot : exists root, ic_toDer c = Ok root /\ rep root (cert_value pb pa subs key exts)).
  { unfold ic_toDer. rewrite Enb, Ena, Esl. cbn [rbind]. unfold pk_toDer. rewrite Ek. unfold node_parse. cbn [skipn]. rewrite Ekn. cbn [rbind].
    assert (Rroot : rep (addChild (addChild (addChild (Seq [] 0 false []) (addChild (addChild (Seq [] 0 false []) nb) na)) sl) kn)
      (VSeq [VSeq [VTime pb; VTime pa]; VSeq (map (fun s => VSeq [VOid (fst s); VString (snd s)]) subs); key])).
    { apply (add_rep _ [VSeq [VTime pb; VTime pa]; VSeq (map (fun s => VSeq [VOid (fst s); VString (snd s)]) subs)]); [|exact Rkn]. apply (add_rep _ [VSeq [VTime pb; VTime pa]]).
      - apply (add_rep _ []); [apply empty_rep|]. apply (add_rep _ [VTime pb]); [|exact Rna]. apply (add_rep _ []); [apply empty_rep|exact Rnb].
      - rewrite Es, map_map in Rsl. exact Rsl. }
    unfold cert_value. rewrite Ee. destruct exts as [|e exts].
    - cbn [map]. change (0 <? zlen []) with false. cbv iota. eexists. split; [reflexivity|]. rewrite app_nil_r. exact Rroot.
    - replace (0 <? zlen (map to_extension (e :: exts))) with true by (cbn [map]; rewrite zlen_cons; pose proof (zlen_nonneg _ (map to_extension exts)); lia). set (el := e :: exts) in *.
      destruct (add_all_ok ex_toDer (fun e => match ex_oid e with IsOid l => VSeq [VOid l; VBool (truthy (ex_critical e)); VOctets (ex_value e)] | NotOid _ => VNull end) (map to_extension el)) with (parent := Seq [] 0 false []) (vs := @nil value) as (en & Een & Ren).
      { apply Forall_map. apply Forall_forall. intros s Hs. rewrite Forall_forall in Fe. destruct (Fe s Hs) as [Ho Hv]. destruct (oid_rep _ Ho) as (n & E & R). unfold ex_toDer. cbn [to_extension ex_oid ex_value ex_critical oid_node truthy]. rewrite E. cbn [rbind]. eexists. split; [reflexivity|].
        apply (add_rep _ [VOid (fst (fst s)); VBool (snd (fst s))]); [|cbn [rep tag leaf_content der_byteString]; auto]. apply (add_rep _ [VOid (fst (fst s))]); [apply (add_rep _ []); [apply empty_rep|exact R]|]. cbn [rep tag leaf_content der_boolean]. auto. }
      { apply empty_rep. }
      rewrite Een. cbn [rbind]. eexists. split; [reflexivity|]. rewrite map_map in Ren. apply (add_rep _ _ _ _ Rroot Ren). }
  destruct Hroot as (root & Er & Rr). exists (snd (node_encode root)). destruct (encode_ok (depth root) root _ Rr (le_n _)) as (Eb & _). fold (node_encode root) in Eb.
  split; [exact Tb|]. split; [exact Ta|]. split; [intro L; rewrite Eb in *; now apply rep_der|]. unfold ic_encode. rewrite Er. reflexivity.
Qed.

(** ** Decoding *)
Lemma rep_children n vs : rep n (VSeq vs) -> exists a b c l, n = Seq a b c l /\ Forall2 rep l vs.
Proof. destruct n as [t h p|a b c l]; intro R; [destruct R as (_ & _ & [])|]. apply rep_seq in R. destruct R as (vl & E & _ & F). injection E as <-. eauto 6. Qed.
Lemma toVal_oid n l : rep n (VOid l) -> node_toVal floor40 n = Ok (PStr (oid_str l)).
Proof. intro R. exact (read_leaf floor40 n _ (read_ok floor40 Hfl n _ R)). Qed.
Lemma toVal_octets n b : rep n (VOctets b) -> node_toVal floor40 n = Ok (PBytes b).
Proof. intro R. exact (read_leaf floor40 n _ (read_ok floor40 Hfl n _ R)). Qed.
Lemma rep_leaf n v : rep n v -> (forall l, v <> VSeq l) -> exists p, n = Leaf (tag v) (encodeHeader (tag v) (zlen p)) p /\ leaf_content v p.
Proof. destruct n as [t h p|a b c l]; intros R N; [destruct R as (-> & -> & L); eauto|]. apply rep_seq in R. destruct R as (vl & -> & _). destruct (N vl eq_refl). Qed.
Lemma toVal_string n b : rep n (VString b) -> node_toVal floor40 n = Ok (PStr b).
Proof. intro R. destruct (rep_leaf n _ R) as (p & -> & L & _); [intros; discriminate|]. subst p. reflexivity. Qed.
Lemma toVal_bool n b : rep n (VBool b) -> node_toVal floor40 n = Ok (PBool b).
Proof. intro R. destruct (rep_leaf n _ R) as (p & -> & L); [intros; discriminate|]. cbn [leaf_content] in L. subst p. destruct b; reflexivity. Qed.
Lemma toVal_time n b t : rep n (VTime b) -> time_toVal b = Ok t -> node_toVal floor40 n = Ok (PFloat t).
Proof. intros R E. destruct (rep_leaf n _ R) as (p & -> & L & _); [intros; discriminate|]. subst p. unfold node_toVal. cbn [tag]. change (24 =? T_BOOLEAN) with false. change (24 =? T_INTEGER) with false. change (24 =? T_OCTETSTRING) with false. change (24 =? T_OID) with false. change (24 =? T_PRINTABLE) with false. change (24 =? T_TIME) with true. cbv iota. rewrite E. reflexivity. Qed.
Lemma split_app : forall s r cur, Forall (fun c => c <> 46) s -> split_dots (s ++ r) cur = split_dots r (rev s ++ cur).
Proof. induction s as [|c s IH]; intros r cur H; [reflexivity|]. inversion H; subst. cbn [app split_dots]. replace (c =? 46) with false by lia. rewrite IH by assumption. cbn [rev]. now rewrite <- app_assoc. Qed.
Lemma str_no_dot n : 0 <= n -> Forall (fun c => c <> 46) (str_int n).
Proof. intro H. destruct (str_int_dig n H) as [D _]. eapply Forall_impl; [|exact D]. intros c Hc. unfold isdig in Hc. lia. Qed.
Lemma oid_of_oid_str : forall l, l <> [] -> Forall (fun x => 0 <= x) l -> oid_of_str (oid_str l) = Ok l.
Proof.
  intros [|x l] N H; [congruence|]. clear N. inversion H as [|? ? Hx Hl]; subst. clear H. unfold oid_of_str, oid_str.
  assert (K : forall l, Forall (fun x => 0 <= x) l -> forall cur x, 0 <= x -> rev cur = str_int x -> ints (split_dots (flat_map (fun y => 46 :: str_int y) l) cur) = Ok (x :: l)).
  { clear. induction l as [|y l IH]; intros H cur x Hx E.
    - cbn [flat_map split_dots ints]. rewrite E, int10_str by assumption. reflexivity.
    - inversion H; subst. cbn [flat_map app split_dots]. change (46 =? 46) with true. cbv iota. cbn [ints]. rewrite E, int10_str by assumption. rewrite split_app by (now apply str_no_dot). rewrite (IH H3 _ y); [reflexivity|assumption|]. rewrite app_nil_r. apply rev_involutive. }
  rewrite split_app by (now apply str_no_dot). apply K; [exact Hl|exact Hx|]. rewrite app_nil_r. apply rev_involutive.
Qed.
Lemma oid_given_ok l : oid_ok l -> oid_given (PStr (oid_str l)) = Ok (IsOid l).
Proof.
  intros (a & b & r & -> & Ha & Hb & Hr). unfold oid_given. rewrite oid_of_oid_str; [reflexivity|discriminate|]. apply Forall_cons; [lia|]. apply Forall_cons; [lia|exact Hr].
Qed.
Lemma utf8_ascii : forall s, ascii s -> utf8_encode s = Ok s.
Proof. induction s as [|c s IH]; intro H; [reflexivity|]. inversion H; subst. cbn [utf8_encode]. rewrite IH by assumption. cbn [rbind]. replace (c <? 128) with true by lia. reflexivity. Qed.
Lemma der_oid_ok l bs : der (VOid l) bs -> oid_ok l.
Proof.
  intro D. apply der_leaf in D; [|intros; discriminate]. destruct D as (len & c & _ & _ & a & b & r & parts & -> & Ha & Hb & F & _). exists a, b, r. repeat (split; [first [reflexivity|assumption]|]).
  inversion F as [|x y l1 l2 _ F2 E1 E2]; subst. clear - F2. induction F2 as [|x c r l H _ IH]; [constructor|]. constructor; [|exact IH]. destruct H as (p & z & -> & Hp & Hz & _ & ->). pose proof (v128_nonneg p) as V. unfold v128, p128 in V. specialize (V Hp). lia.
Qed.
Lemma rep_oid_ok n l : rep n (VOid l) -> oid_ok l.
Proof.
  intro R. destruct (rep_leaf n _ R) as (p & -> & a & b & r & parts & -> & Ha & Hb & F & _); [intros; discriminate|]. exists a, b, r. repeat (split; [first [reflexivity|assumption]|]).
  inversion F as [|x y l1 l2 _ F2 E1 E2]; subst. clear - F2. induction F2 as [|x c r l H _ IH]; [constructor|]. constructor; [|exact IH]. destruct H as (q & z & -> & Hp & Hz & _ & ->). pose proof (v128_nonneg q) as V. unfold v128, p128 in V. specialize (V Hp). lia.
Qed.
Lemma subjects_ok : forall subs subs' l c, Forall2 (fun s s' : list Z * bytes => fst s = fst s' /\ utf8_encode (snd s) = Ok (snd s')) subs subs' ->
  Forall2 rep l (map (fun s => VSeq [VOid (fst s); VString (snd s)]) subs) ->
  mfor (decode_subject floor40) l c = (ICert (ic_data c) (ic_notBefore c) (ic_notAfter c) (ic_subjects c ++ map to_subject subs') (ic_extensions c) (ic_key c) (ic_publicKeyName c), Ok tt).
Proof.
  intros subs subs' l c F. revert l c. induction F as [|s s' subs subs' [E1 E2] _ IH]; intros l c R; inversion R as [|n v l' vs Rn Rl E3 E4]; subst.
  - cbn [mfor map]. rewrite app_nil_r. destruct c; reflexivity.
  - destruct (rep_children _ _ Rn) as (a & b & d & ch & -> & Fc). inversion Fc as [|n1 v1 ch1 vs1 R1 Fc1 E5 E6]; subst. inversion Fc1 as [|n2 v2 ch2 vs2 R2 Fc2 E5 E6]; subst. inversion Fc2; subst.
    cbn [mfor]. unfold mbind at 1, decode_subject at 1, mbind at 1, mlift at 1. unfold item. cbn [getChildren rbind nth_error]. rewrite (toVal_oid _ _ R1), (toVal_string _ _ R2). cbn [rbind]. rewrite (oid_given_ok _ (rep_oid_ok _ _ R1)). cbn [rbind PkcsModel.blob_bytes]. rewrite E2. cbn [rbind]. unfold mmod at 1.
    cbv iota beta. rewrite IH by assumption. cbn [ic_data ic_notBefore ic_notAfter ic_subjects ic_extensions ic_key ic_publicKeyName add_subject map]. rewrite <- app_assoc. rewrite E1. reflexivity.
Qed.
Lemma extensions_ok : forall exts l c, Forall2 rep l (map (fun e => VSeq [VOid (fst (fst e)); VBool (snd (fst e)); VOctets (snd e)]) exts) ->
  mfor (decode_extension floor40) l c = (ICert (ic_data c) (ic_notBefore c) (ic_notAfter c) (ic_subjects c) (ic_extensions c ++ map to_extension exts) (ic_key c) (ic_publicKeyName c), Ok tt).
Proof.
  induction exts as [|s exts IH]; intros l c R; inversion R as [|n v l' vs Rn Rl E3 E4]; subst.
  - cbn [mfor map]. rewrite app_nil_r. destruct c; reflexivity.
  - destruct (rep_children _ _ Rn) as (a & b & d & ch & -> & Fc). inversion Fc as [|n1 v1 ch1 vs1 R1 Fc1 E5 E6]; subst. inversion Fc1 as [|n2 v2 ch2 vs2 R2 Fc2 E5 E6]; subst. inversion Fc2 as [|n3 v3 ch3 vs3 R3 Fc3 E5 E6]; subst. inversion Fc3; subst.
    cbn [mfor]. unfold mbind at 1, decode_extension at 1, mbind at 1, mlift at 1. unfold item. cbn [getChildren rbind nth_error]. rewrite (toVal_oid _ _ R1), (toVal_bool _ _ R2), (toVal_octets _ _ R3). cbn [rbind]. rewrite (oid_given_ok _ (rep_oid_ok _ _ R1)). cbn [rbind PkcsModel.blob_bytes]. unfold mmod at 1.
    cbv iota beta. rewrite IH by assumption. cbn [ic_data ic_notBefore ic_notAfter ic_subjects ic_extensions ic_key ic_publicKeyName add_extension map]. rewrite <- app_assoc. reflexivity.
Qed.
Lemma oid_str_eq : zlist_eqb (oid_str EC_ENCRYPTION_OID) (oid_str RSA_ENCRYPTION_OID) = false.
Proof. vm_compute. reflexivity. Qed.
(** A key in DER of a known algorithm is taken as it is *)
Theorem C89_public_key : forall key keyDer t, known_key load_public key keyDer t -> pk_new keyDer = Ok (PK (Some keyDer) (Some t)).
Proof.
  intros key kd t [D K]. unfold IcertModel.pk_new.
  assert (P : forall algorithm, public_key_value key algorithm -> (n <-- node_parse kd 0 ;; l <-- getChildren n ;; s <-- getSequence l 0 ;; a <-- getChildren s ;; x <-- item a 0 ;; node_toVal floor40 x) = Ok (PStr (oid_str algorithm))).
  { intros algorithm (params & bits & ->). unfold node_parse. cbn [skipn]. destruct (parse_ok _ (length kd) kd [] D (le_n _)) as (n & En & R & _). rewrite app_nil_r in En. rewrite En. cbn [rbind].
    destruct (rep_children _ _ R) as (a & b & d & ch & -> & Fc). inversion Fc as [|n1 v1 ch1 vs1 R1 Fc1 E5 E6]; subst. destruct (rep_children _ _ R1) as (a1 & b1 & d1 & ch2 & -> & Fc2). inversion Fc2 as [|n2 v2 ch3 vs2 R2 Fc3 E5 E6]; subst.
    unfold item, getSequence. cbn [getChildren rbind nth_error]. exact (toVal_oid _ _ R2). }
  destruct K as [(Hk & L & ->)|(Hk & ->)]; rewrite (P _ Hk); cbn [rbind is_oid_str].
  - assert (Z0 : zlist_eqb (oid_str RSA_ENCRYPTION_OID) (oid_str RSA_ENCRYPTION_OID) = true) by (vm_compute; reflexivity). rewrite Z0, L. reflexivity.
  - rewrite oid_str_eq. assert (Z0 : zlist_eqb (oid_str EC_ENCRYPTION_OID) (oid_str EC_ENCRYPTION_OID) = true) by (vm_compute; reflexivity). rewrite Z0. reflexivity.
Qed.
(** From the content that is a certificate (with or without bytes after it) exactly its fields are
    read; the subject descriptions and extensions are appended to those that are there. The text of
    a subject description is encoded in UTF-8. *)
Theorem C89_decode : forall c bs rest notBefore notAfter t1 t2 subjects subjects' key keyDer t extensions,
  d_content (ic_data c) = Some (bs ++ rest) -> der (cert_value notBefore notAfter subjects key extensions) bs ->
  time_toVal notBefore = Ok t1 -> time_toVal notAfter = Ok t2 -> known_key load_public key keyDer t ->
  Forall2 (fun s s' : list Z * bytes => fst s = fst s' /\ utf8_encode (snd s) = Ok (snd s')) subjects subjects' ->
  ic_decode c = (ICert (ic_data c) t1 t2 (ic_subjects c ++ map to_subject subjects') (ic_extensions c ++ map to_extension extensions) (PK (Some keyDer) (Some t)) (ic_publicKeyName c), Ok tt).
Proof.
  intros c bs rest nb na t1 t2 subs subs' key kd t exts Ec D T1 T2 Hk Hs. unfold IcertModel.ic_decode. rewrite Ec. cbn [rbind]. unfold node_parse. cbn [skipn].
  destruct (parse_ok _ (length (bs ++ rest)) bs rest D) as (n & -> & R & _); [rewrite app_length; lia|]. unfold cert_value in R. destruct (rep_children _ _ R) as (a & b & d & ch & -> & Fc). cbn [rbind getChildren].
  cbn [app] in Fc. inversion Fc as [|nv v1 ch1 vs1 Rv Fc1 E1 E2]; subst. inversion Fc1 as [|ns v2 ch2 vs2 Rs Fc2 E3 E4]; subst. inversion Fc2 as [|nk v3 ch3 vs3 Rk Fc3 E5 E6]; subst. clear Fc Fc1 Fc2.
  destruct (rep_children _ _ Rv) as (a1 & b1 & d1 & chv & -> & Fv). inversion Fv as [|n1 w1 l1 ws1 R1 Fv1 E7 E8]; subst. inversion Fv1 as [|n2 w2 l2 ws2 R2 Fv2 E9 E10]; subst. inversion Fv2; subst. clear Fv Fv1 Fv2 Rv.
  destruct (rep_children _ _ Rs) as (a2 & b2 & d2 & chs & -> & Fs).
  unfold mbind at 1, mlift at 1. unfold mbind at 1, mlift at 1, getSequence at 1. cbn [nth_error rbind getChildren]. unfold mbind at 1, mlift at 1, item at 1. cbn [nth_error rbind]. rewrite (toVal_time _ _ _ R1 T1). cbn [rbind as_time].
  unfold mbind at 1, mmod at 1. cbv iota beta. unfold mbind at 1, mlift at 1, item at 1. cbn [nth_error rbind]. rewrite (toVal_time _ _ _ R2 T2). cbn [rbind as_time]. unfold mbind at 1, mmod at 1. cbv iota beta.
  unfold mbind at 1, mlift at 1, getSequence at 1. cbn [nth_error rbind getChildren]. unfold mbind at 1. rewrite (subjects_ok subs subs') by assumption.
  unfold mbind at 1, mlift at 1, item at 1. cbn [nth_error rbind].
  destruct (encode_ok (depth nk) nk _ Rk (le_n _)) as (Eb & _). fold (node_encode nk) in Eb. rewrite Eb, (der_bytes nk key kd Rk (proj1 Hk)).
  rewrite (C89_public_key key kd t Hk). unfold mbind at 1, mmod at 1. cbv iota beta.
  destruct exts as [|e exts].
  - inversion Fc3; subst. change (3 <? zlen [_; _; _]) with false. cbv iota. cbn [map]. rewrite app_nil_r. reflexivity.
  - inversion Fc3 as [|ne v4 ch4 vs4 Re Fc4 E9 E10]; subst. inversion Fc4; subst. change (3 <? zlen [_; _; _; _]) with true. cbv iota.
    destruct (rep_children _ _ Re) as (a3 & b3 & d3 & che & -> & Fe). unfold mbind at 1, mlift at 1, getSequence at 1. cbn [nth_error rbind getChildren]. rewrite (extensions_ok (e :: exts)) by assumption. reflexivity.
Qed.

(** ** Round trips *)
Definition encodable (c : cert) (subjects : list (list Z * bytes)) (key : value) (keyDer : bytes) (t : Z) (extensions : list (list Z * bool * bytes)) : Prop :=
  iso_range (ic_notBefore c / 1000) /\ iso_range (ic_notAfter c / 1000) /\ ic_subjects c = map to_subject subjects /\ Forall subject_ok subjects /\ Forall (fun s => ascii (snd s)) subjects /\
  pk_der (ic_key c) = Some keyDer /\ known_key load_public key keyDer t /\ ic_extensions c = map to_extension extensions /\ Forall extension_ok extensions.
(** The certificate is read back, the times in whole seconds. *)
Theorem C89_round_trip : forall c subjects key keyDer t extensions, encodable c subjects key keyDer t extensions ->
  exists c' bs, ic_encode c = Ok c' /\ d_content (ic_data c') = Some bs /\ (zlen bs < 2 ^ 64 -> forall o, ic_subjects o = [] -> ic_extensions o = [] -> d_content (ic_data o) = Some bs ->
    ic_decode o = (ICert (ic_data o) (ic_notBefore c / 1000 * 1000) (ic_notAfter c / 1000 * 1000) (ic_subjects c) (ic_extensions c) (PK (Some keyDer) (Some t)) (ic_publicKeyName o), Ok tt)).
Proof.
  intros c subs key kd t exts (Hb & Ha & Es & Fs & As & Ek & Hk & Ee & Fe). destruct (C89_encode c subs key kd exts Hb Ha Es Fs Ek (proj1 Hk) Ee Fe) as (nb & na & bs & Tb & Ta & D & En).
  eexists. exists bs. split; [exact En|]. split; [reflexivity|]. intros L o So Xo Co. specialize (D L).
  destruct (C61_time _ Hb) as (pb & Tb' & _ & _ & Vb). destruct (C61_time _ Ha) as (pa & Ta' & _ & _ & Va). rewrite Tb in Tb'. injection Tb' as <-. rewrite Ta in Ta'. injection Ta' as <-.
  rewrite (C89_decode o bs [] nb na (ic_notBefore c / 1000 * 1000) (ic_notAfter c / 1000 * 1000) subs subs key kd t exts); [|rewrite app_nil_r; exact Co|exact D|exact Vb|exact Va|exact Hk|].
  - rewrite So, Xo, Es, Ee. reflexivity.
  - clear - As. induction As as [|s l H _ IH]; constructor; [|exact IH]. split; [reflexivity|now apply utf8_ascii].
Qed.
(** The same over the wire: the Data is encoded, and decoded by another certificate object. *)
Theorem C89_wire_round_trip : forall c subjects key keyDer t extensions, encodable c subjects key keyDer t extensions -> name_ok (d_name (ic_data c)) -> mi_ok (d_meta (ic_data c)) -> sig_ok (d_sig (ic_data c)) ->
  exists c', ic_encode c = Ok c' /\ (zlen (data_bytes (ic_data c')) < 2 ^ 64 -> forall o, ic_subjects o = [] -> ic_extensions o = [] ->
    exists w offs, encodeData (ic_data c') = Ok (w, offs) /\
      ic_wireDecode load_public floor40 w o =
        (ICert (data_seen (ic_data o) (ic_data c')) (ic_notBefore c / 1000 * 1000) (ic_notAfter c / 1000 * 1000) (ic_subjects c) (ic_extensions c) (PK (Some keyDer) (Some t)) (ic_publicKeyName o), Ok tt)).
Proof.
  intros c subs key kd t exts He Hn Hm Hs. destruct (C89_round_trip c subs key kd t exts He) as (c' & bs & En & Ec & Dec). exists c'. split; [exact En|]. intros L o So Xo.
  assert (Hd : data_ok (ic_data c')).
  { unfold ic_encode in En. destruct (ic_toDer c); [|discriminate En]. cbn [rbind] in En. injection En as <-. split; [exact Hn|]. split; [|exact Hs]. cbn [ic_setData ic_data d_meta]. destruct Hm as (_ & F & C). split; [left; cbn; lia|]. split; [exact F|exact C]. }
  destruct (C18_data_round_trip (ic_data o) (ic_data c') Hd L) as (offs & E1 & E2). exists (data_bytes (ic_data c')), offs. split; [exact E1|]. unfold ic_wireDecode. rewrite E2. cbn [fst].
  rewrite Dec; [reflexivity| |exact So|exact Xo|].
  - assert (K : zlen bs <= zlen (data_bytes (ic_data c'))); [|lia]. unfold data_bytes, data_signed, tlv, elems. cbn [map concat fst snd]. unfold tlv. rewrite Ec. cbn [WireSpec.blob_bytes]. rewrite ?zlen_app.
    repeat match goal with |- context [zlen ?l] => lazymatch l with bs => fail | _ => pose proof (zlen_nonneg _ l); generalize dependent (zlen l); intros end end. lia.
  - cbn [ic_setData ic_data data_seen d_content]. rewrite Ec. reflexivity.
Qed.
End Cert.

(** ** Names of identity certificates *)
Lemma esc_same : forall v t, Forall (fun c => unreserved c = true) t -> flat_map (fun x => if unreserved x then [x] else 37 :: hex2U x) v = t -> v = t.
Proof.
  induction v as [|x v IH]; intros t H E; [exact E|]. cbn [flat_map] in E. destruct (unreserved x) eqn:U.
  - destruct t as [|y t]; [discriminate E|]. injection E as <- E. f_equal. apply IH; [now inversion H|exact E].
  - destruct t as [|y t]; [discriminate E|]. injection E as <- _. inversion H as [|? ? K _]. discriminate K.
Qed.
Lemma is_text_word t x : Forall (fun c => unreserved c = true) t -> ~ In 61 t -> gotNonDot t = true -> is_text t x = true <-> word t x.
Proof.
  intros U N G. unfold is_text, word. rewrite zlist_eqb_eq. unfold c_toEscapedString, toEscapedString. split.
  - intro E. destruct (c_type x =? CT_IMPLICIT); [exfalso; apply N; rewrite <- E; apply in_or_app; left; cbn; tauto|]. destruct (c_type x =? CT_PARAMS); [exfalso; apply N; rewrite <- E; apply in_or_app; left; cbn; tauto|].
    destruct (negb (c_type x =? CT_GENERIC)) eqn:T; [exfalso; apply N; rewrite <- E; apply in_or_app; left; apply in_or_app; right; now left|]. unfold CT_GENERIC in T. split; [lia|]. cbn [app] in E.
    destruct (negb (gotNonDot (c_value x))); [|now apply esc_same]. exfalso. rewrite <- E in G. unfold gotNonDot in G. apply existsb_exists in G. destruct G as (c & Hc & K). apply repeat_spec in Hc. subst c. discriminate K.
  - intros [T V]. rewrite T, V. change (8 =? CT_IMPLICIT) with false. change (8 =? CT_PARAMS) with false. change (8 =? CT_GENERIC) with true. cbn [negb app]. rewrite G. cbn [negb].
    clear - U. induction U as [|c t H _ IH]; [reflexivity|]. cbn [flat_map]. rewrite H, IH. reflexivity.
Qed.
Lemma key_word x : is_text key_text x = true <-> word [75; 69; 89] x.
Proof. apply is_text_word; [repeat constructor|cbn; lia|reflexivity]. Qed.
Lemma cert_word x : is_text id_cert x = true <-> word [73; 68; 45; 67; 69; 82; 84] x.
Proof. apply is_text_word; [repeat constructor|cbn; lia|reflexivity]. Qed.
Lemma first_spec t : forall n i, match first_index t n i with
  | None => Forall (fun x => is_text t x = false) n
  | Some k => exists a x b, n = a ++ x :: b /\ k = i + zlen a /\ is_text t x = true /\ Forall (fun x => is_text t x = false) a end.
Proof.
  induction n as [|x n IH]; intro i; cbn [first_index]; [constructor|]. destruct (is_text t x) eqn:E.
  - exists [], x, n. rewrite zlen_nil. split; [reflexivity|]. split; [lia|]. split; [exact E|constructor].
  - specialize (IH (i + 1)). destruct (first_index t n (i + 1)) as [k|]; [|constructor; assumption]. destruct IH as (a & y & b & -> & -> & H & F). exists (x :: a), y, b. rewrite zlen_cons. split; [reflexivity|]. split; [lia|]. split; [exact H|constructor; assumption].
Qed.
Lemma last_spec t : forall n i acc, (last_index t n i acc = acc /\ Forall (fun x => is_text t x = false) n) \/
  exists a x b, n = a ++ x :: b /\ last_index t n i acc = Some (i + zlen a) /\ is_text t x = true /\ Forall (fun x => is_text t x = false) b.
Proof.
  induction n as [|x n IH]; intros i acc; cbn [last_index]; [left; split; [reflexivity|constructor]|].
  destruct (IH (i + 1) (if is_text t x then Some i else acc)) as [[E F]|(a & y & b & -> & E & H & F)].
  - rewrite E. destruct (is_text t x) eqn:T; [|left; split; [reflexivity|constructor; assumption]]. right. exists [], x, n. rewrite zlen_nil. split; [reflexivity|]. split; [f_equal; lia|]. split; assumption.
  - right. exists (x :: a), y, b. rewrite E, zlen_cons. split; [reflexivity|]. split; [f_equal; lia|]. split; assumption.
Qed.
Lemma not_text t x P : (is_text t x = true <-> P) -> is_text t x = false <-> ~ P.
Proof. intro H. destruct (is_text t x); split; intro K; try congruence; [destruct K; apply H; reflexivity|intro Q; apply H in Q; discriminate Q]. Qed.
Lemma split_first {A} (P : A -> Prop) a x b a' x' b' : a ++ x :: b = a' ++ x' :: b' -> P x -> Forall (fun y => ~ P y) a -> P x' -> Forall (fun y => ~ P y) a' -> a = a' /\ x = x' /\ b = b'.
Proof.
  revert a'. induction a as [|y a IH]; intros [|y' a'] E Px Fa Px' Fa'; cbn [app] in E.
  - injection E as <- <-. auto.
  - injection E as <- _. inversion Fa'; subst. contradiction.
  - injection E as -> _. inversion Fa; subst. contradiction.
  - injection E as <- E. inversion Fa; subst. inversion Fa'; subst. destruct (IH a' E Px ltac:(assumption) Px' ltac:(assumption)) as (-> & -> & ->). auto.
Qed.
Lemma split_last {A} (P : A -> Prop) a x b a' x' b' : a ++ x :: b = a' ++ x' :: b' -> P x -> Forall (fun y => ~ P y) b -> P x' -> Forall (fun y => ~ P y) b' -> a = a' /\ x = x' /\ b = b'.
Proof.
  intros E Px Fb Px' Fb'. apply (f_equal (@rev A)) in E. rewrite !rev_app_distr in E. cbn [rev] in E. rewrite <- !app_assoc in E. cbn [app] in E.
  destruct (split_first P (rev b) x (rev a) (rev b') x' (rev a') E Px) as (E1 & E2 & E3); [now apply Forall_rev|exact Px'|now apply Forall_rev|].
  apply (f_equal (@rev A)) in E1. apply (f_equal (@rev A)) in E3. rewrite !rev_involutive in E1, E3. auto.
Qed.
(** The name of the key of a certificate, for exactly the names that have one; RuntimeError else. *)
Theorem C89_key_name : forall n p, (certificateNameToPublicKeyName n = Ok p <-> key_name n p) /\ ((forall p, ~ key_name n p) -> certificateNameToPublicKeyName n = Err RuntimeError).
Proof.
  intros n p. unfold certificateNameToPublicKeyName. destruct (last_spec id_cert n 0 None) as [[-> F]|(t & i & c & -> & -> & Hi & Fc)].
  - split; [|reflexivity]. split; [intro K; discriminate K|]. intros (a & k & b & i & c & -> & _ & Wi & _). exfalso. apply cert_word in Wi. rewrite !Forall_app in F. destruct F as (_ & _ & _ & F & _). inversion F; subst. congruence.
  - rewrite Z.add_0_l. rewrite n_getSubName_ok by zlia. change (0 <? 0) with false. cbv iota. rewrite Z.add_0_l, (zslice_app' _ [] t (i :: c)) by (rewrite ?zlen_nil; lia). cbn [rbind].
    assert (Sp : forall a k b i' c', t ++ i :: c = a ++ [k] ++ b ++ [i'] ++ c' -> word [73; 68; 45; 67; 69; 82; 84] i' -> Forall (fun x => ~ word [73; 68; 45; 67; 69; 82; 84] x) c' -> t = a ++ k :: b).
    { intros a k b i' c' E Wi Fc'. replace (a ++ [k] ++ b ++ [i'] ++ c') with ((a ++ k :: b) ++ i' :: c') in E by (cbn [app]; rewrite <- app_assoc; reflexivity).
      destruct (split_last (word [73; 68; 45; 67; 69; 82; 84]) t i c _ i' c' E) as (X & _ & _); [now apply cert_word| |exact Wi|exact Fc'|exact X].
      eapply Forall_impl; [|exact Fc]. intros x Hx. now apply (not_text id_cert x _ (cert_word x)). }
    pose proof (first_spec key_text t 0) as Hf. destruct (first_index key_text t 0) as [j|].
    + destruct Hf as (a & k & b & -> & -> & Hk & Fa). rewrite Z.add_0_l. rewrite !n_getSubName_ok by zlia. change (0 <? 0) with false. replace (zlen a + 1 <? 0) with false by zlia. cbv iota.
      rewrite Z.add_0_l, (zslice_app' _ [] a (k :: b)) by (rewrite ?zlen_nil; lia). cbn [rbind].
      replace (a ++ k :: b) with ((a ++ [k]) ++ b ++ []) at 1 by (rewrite app_nil_r, <- app_assoc; reflexivity). rewrite (zslice_app' _ (a ++ [k]) b []) by zlia. cbn [rbind].
      assert (Kn : key_name ((a ++ k :: b) ++ i :: c) (a ++ b)).
      { exists a, k, b, i, c. split; [cbn [app]; rewrite <- app_assoc; reflexivity|]. split; [now apply key_word|]. split; [now apply cert_word|]. split; [eapply Forall_impl; [|exact Fa]; intros x Hx; now apply (not_text key_text x _ (key_word x))|].
        split; [eapply Forall_impl; [|exact Fc]; intros x Hx; now apply (not_text id_cert x _ (cert_word x))|reflexivity]. }
      split; [|intro N; destruct (N _ Kn)]. split; [intro E; injection E as <-; exact Kn|]. intros (a' & k' & b' & i' & c' & E & Wk & Wi & Fa' & Fc' & ->).
      pose proof (Sp _ _ _ _ _ E Wi Fc') as E'. destruct (split_first (word [75; 69; 89]) a k b a' k' b' E') as (-> & _ & ->); [now apply key_word| |exact Wk|exact Fa'|reflexivity].
      eapply Forall_impl; [|exact Fa]. intros x Hx. now apply (not_text key_text x _ (key_word x)).
    + split; [|reflexivity]. split; [intro E; discriminate E|]. intros (a' & k' & b' & i' & c' & E & Wk & Wi & Fa' & Fc' & _). exfalso. pose proof (Sp _ _ _ _ _ E Wi Fc') as ->. apply Forall_app in Hf. destruct Hf as [_ Hf]. inversion Hf; subst. apply key_word in Wk. congruence.
Qed.
(** setName: a name without KEY or ID-CERT is refused and nothing changes; a name of a key is set,
    with the name of the key. *)
Theorem C89_set_name : forall n c,
  ((Forall (fun x => ~ word [75; 69; 89] x) n \/ Forall (fun x => ~ word [73; 68; 45; 67; 69; 82; 84] x) n) -> id_setName n c = (c, Err SecurityException)) /\
  (forall p, key_name n p -> let r := id_setName n c in snd r = Ok tt /\ d_name (ic_data (fst r)) = n /\ ic_publicKeyName (fst r) = Some p /\ d_content (ic_data (fst r)) = d_content (ic_data c) /\ ic_key (fst r) = ic_key c).
Proof.
  intros n c. unfold id_setName, isCorrectName. pose proof (first_spec key_text n 0) as Hf. destruct (last_spec id_cert n 0 None) as [[-> Fl]|(a & x & b & -> & -> & Hx & Fb)].
  - split; [reflexivity|]. intros p (a & k & b & i & c' & -> & _ & Wi & _). exfalso. apply cert_word in Wi. rewrite !Forall_app in Fl. destruct Fl as (_ & _ & _ & Fl & _). inversion Fl; subst. congruence.
  - set (n := a ++ x :: b) in *. destruct (first_index key_text n 0) as [j|].
    + destruct Hf as (a' & k & b' & E & _ & Hk & _). split.
      * intros [Fn|Fn]; exfalso; [rewrite E in Fn; apply Forall_app in Fn; destruct Fn as [_ Fn]; inversion Fn as [|? ? N _]; apply N, key_word; exact Hk|].
        unfold n in Fn. apply Forall_app in Fn. destruct Fn as [_ Fn]. inversion Fn as [|? ? N _]. apply N, cert_word. exact Hx.
      * intros p Kn. unfold setPublicKeyName. cbn [ic_setData ic_data d_name]. rewrite (proj2 (proj1 (C89_key_name n p)) Kn). cbn. auto.
    + split; [reflexivity|]. intros p (a' & k' & b' & i' & c' & E & Wk & _). exfalso. rewrite E in Hf. apply Forall_app in Hf. destruct Hf as [_ Hf]. inversion Hf; subst. apply key_word in Wk. congruence.
Qed.
(** (Witness.) With KEY only behind ID-CERT it raises RuntimeError, but the name is set, and the
    name of the key is the one of the old name. *)
Theorem C89_set_name_refuted : exists n, forall c, id_setName n c = (ic_setData c (let d := ic_data c in Data n (d_meta d) (d_content d) (d_sig d)), Err RuntimeError).
Proof. exists [c_generic id_cert; c_generic key_text]. intro c. reflexivity. Qed.
(** (Witness.) A text that is not ASCII is changed, already by one encoding and decoding. *)
Definition ex_key : value := VSeq [VSeq [VOid EC_ENCRYPTION_OID]; VBits 0 [7]].
Definition ex_keyDer : bytes := Eval vm_compute in match build ex_key with Ok n => snd (node_encode n) | Err _ => [] end.
Definition ex_floor (x : Z) : Z := x / 40.
Definition ex_cert (text : bytes) : cert :=
  ICert (Data [c_generic [65]; c_generic key_text; c_generic [107]; c_generic id_cert; c_generic [1]] mi_empty None (SigDigest (Some [1]))) 1600000000999 1700000000000
    [Subject (IsOid [2; 5; 4; 41]) text] [Extension (IsOid [1; 2; 840]) (PBool true) [1; 2]] (PK (Some ex_keyDer) (Some 1)) None.
Theorem C89_text_refuted : exists c c', ic_encode c = Ok c' /\ ic_subjects c = [Subject (IsOid [2; 5; 4; 41]) [233]] /\
  let o := fst (ic_decode (fun _ => Ok tt) ex_floor (ic_new (ic_data c'))) in ic_subjects o = [Subject (IsOid [2; 5; 4; 41]) [195; 169]].
Proof. exists (ex_cert [233]). eexists. split; [vm_compute; reflexivity|]. split; [reflexivity|]. vm_compute. reflexivity. Qed.
(** (Witness.) Decoded twice with the same object, the descriptions and extensions are there twice:
    every further certificate that is decoded adds its own to those of the certificate before. *)
Theorem C89_decode_twice_refuted : forall load_public floor40 c bs notBefore notAfter t1 t2 subjects key keyDer t extensions, floor_ok floor40 ->
  d_content (ic_data c) = Some bs -> der (cert_value notBefore notAfter subjects key extensions) bs ->
  time_toVal notBefore = Ok t1 -> time_toVal notAfter = Ok t2 -> known_key load_public key keyDer t -> Forall (fun s => ascii (snd s)) subjects -> ic_subjects c = [] ->
  let once := fst (ic_decode load_public floor40 c) in ic_subjects (fst (ic_decode load_public floor40 once)) = map to_subject subjects ++ map to_subject subjects.
Proof.
  intros lp fl c bs nb na t1 t2 subs key kd t exts Hfl Ec D T1 T2 Hk As So once.
  assert (Hs : Forall2 (fun s s' : list Z * bytes => fst s = fst s' /\ utf8_encode (snd s) = Ok (snd s')) subs subs) by (clear - As; induction As as [|s l H _ IH]; constructor; [|exact IH]; split; [reflexivity|now apply utf8_ascii]).
  pose proof (C89_decode lp fl Hfl c bs [] nb na t1 t2 subs subs key kd t exts) as K. rewrite app_nil_r in K. specialize (K Ec D T1 T2 Hk Hs). unfold once. rewrite K. cbn [fst]. clear K once.
  match goal with |- context [ICert ?a ?b ?x ?d ?e ?f ?g] => set (o := ICert a b x d e f g) end.
  pose proof (C89_decode lp fl Hfl o bs [] nb na t1 t2 subs subs key kd t exts) as K. rewrite app_nil_r in K. rewrite (K Ec D T1 T2 Hk Hs). cbn [fst ic_subjects]. unfold o. cbn [ic_subjects]. rewrite So. reflexivity.
Qed.
(** ** A concrete certificate *)
Example C89_ex : encodable (fun _ => Ok tt) (ex_cert [65; 66]) [([2; 5; 4; 41], [65; 66])] ex_key ex_keyDer 1 [([1; 2; 840], true, [1; 2])] /\
  exists c', ic_encode (ex_cert [65; 66]) = Ok c' /\ id_of_data (fun _ => Ok tt) ex_floor (ic_data c') =
    Ok (ICert (ic_data c') 1600000000000 1700000000000 [Subject (IsOid [2; 5; 4; 41]) [65; 66]] [Extension (IsOid [1; 2; 840]) (PBool true) [1; 2]] (PK (Some ex_keyDer) (Some 1)) (Some [c_generic [65]; c_generic [107]])).
Proof.
  split; [|eexists; split; [vm_compute; reflexivity|vm_compute; reflexivity]]. unfold encodable, ex_cert. cbn [ic_notBefore ic_notAfter ic_subjects ic_key ic_extensions pk_der]. unfold iso_range.
  change (1600000000999 / 1000) with 1600000000. change (1700000000000 / 1000) with 1700000000. split; [lia|]. split; [lia|]. split; [reflexivity|].
  split; [apply Forall_cons; [split; [exists 2, 5, [4; 41]; repeat split; try lia; repeat constructor; lia|repeat constructor; unfold is_byte; lia]|apply Forall_nil]|].
  split; [apply Forall_cons; [repeat constructor; lia|apply Forall_nil]|]. split; [reflexivity|]. split.
  - split; [|right; split; [eexists; eexists; reflexivity|reflexivity]]. destruct (C59_encode ex_key) as (n & E & _ & D).
    + cbn [v_ok ex_key]. split; [|split; [split; [unfold is_byte; lia|repeat constructor; unfold is_byte; lia]|exact Logic.I]]. split; [|exact Logic.I]. exists 1, 2, [840; 10045; 2; 1]. repeat split; try lia; repeat constructor; lia.
    + assert (X : snd (node_encode n) = ex_keyDer) by (vm_compute in E; injection E as <-; vm_compute; reflexivity). rewrite X in D. apply D. vm_compute. reflexivity.
  - split; [reflexivity|]. apply Forall_cons; [split; [exists 1, 2, [840]; repeat split; try lia; repeat constructor; lia|repeat constructor; unfold is_byte; lia]|apply Forall_nil].
Qed.

(** ** Arbitrary contents *)
Definition dec_err (load_public : bytes -> res unit) (e : Base.exn) : Prop := In e [OtherError; IndexError; ValueError; TypeError; SecurityException] \/ exists k, load_public k = Err e.
Lemma bind_err {A B} (m : res A) (k : A -> res B) e : rbind m k = Err e -> m = Err e \/ exists a, m = Ok a /\ k a = Err e.
Proof. destruct m as [a|x]; cbn [rbind]; intro H; [right; eauto|left; congruence]. Qed.
Lemma mbind_err {A B} (m : cert -> cert * res A) (k : A -> cert -> cert * res B) c e : snd (mbind m k c) = Err e -> snd (m c) = Err e \/ exists a c', m c = (c', Ok a) /\ snd (k a c') = Err e.
Proof. unfold mbind. destruct (m c) as [c' [a|x]]; cbn [snd]; intro H; [right; eauto|left; congruence]. Qed.
Lemma decode128_err : forall p r, match decode128 p r with Ok q => (length (snd q) < length p)%nat | Err e => e = IndexError end.
Proof.
  induction p as [|b p IH]; intro r; cbn [decode128]; [reflexivity|]. destruct (negb _); [|cbn; lia]. specialize (IH (128 * r + b - 128)). destruct (decode128 p _); [cbn [length]; lia|exact IH].
Qed.
Lemma components_err : forall f p e, (length p <= f)%nat -> oid_components f p = Err e -> e = IndexError.
Proof.
  induction f as [|f IH]; intros [|b p] e L H; cbn [oid_components] in H; try discriminate H; [cbn in L; lia|].
  pose proof (decode128_err (b :: p) 0) as K. destruct (decode128 (b :: p) 0) as [q|x]; cbn [rbind] in H; [|congruence]. apply bind_err in H. destruct H as [H|(a & _ & H)]; [|discriminate H]. eapply IH; [|exact H]. cbn [length] in *. lia.
Qed.
Lemma int_or_err s e : int_or s = Err e -> e = ValueError.
Proof. unfold int_or. destruct (int10 s); intro H; congruence. Qed.
Lemma time_err p e : time_toVal p = Err e -> e = ValueError.
Proof.
  unfold time_toVal. destruct (_ && _ && _); [|intro H; congruence].
  repeat (intro H; apply bind_err in H; destruct H as [H|(? & _ & H)]; [now apply int_or_err in H|revert H]). intro H. apply bind_err in H. destruct H as [H|(? & _ & H)]; [|discriminate H].
  unfold dt_new in H. repeat match type of H with context [if ?b then _ else _] => destruct b end; congruence.
Qed.
Lemma toVal_err fl n e : node_toVal fl n = Err e -> In e [OtherError; IndexError; ValueError].
Proof.
  destruct n as [t h p|]; [|intro H; discriminate H]. unfold node_toVal.
  destruct (t =? T_BOOLEAN). { unfold boolean_toVal. destruct p; cbn [rbind]; intro H; [injection H as <-; cbn; tauto|discriminate H]. }
  destruct (t =? T_INTEGER). { unfold integer_toVal. destruct p as [|b p]; cbn [rbind]; [intro H; discriminate H|]. destruct (128 <=? b); cbn [rbind]; intro H; [injection H as <-; cbn; tauto|discriminate H]. }
  destruct (t =? T_OCTETSTRING); [intro H; discriminate H|].
  destruct (t =? T_OID). { unfold oid_toVal. intro H. apply bind_err in H. destruct H as [H|(? & _ & H)]; [|discriminate H]. apply bind_err in H. destruct H as [H|(l & _ & H)]; [apply components_err in H; [subst e; cbn; tauto|lia]|]. destruct l; [injection H as <-; cbn; tauto|discriminate H]. }
  destruct (t =? T_PRINTABLE); [intro H; discriminate H|]. destruct (t =? T_TIME); [|intro H; discriminate H]. intro H. apply bind_err in H. destruct H as [H|(? & _ & H)]; [|discriminate H]. apply time_err in H. subst e. cbn; tauto.
Qed.
Lemma getChildren_err n e : getChildren n = Err e -> e = OtherError.
Proof. destruct n; cbn; intro H; congruence. Qed.
Lemma getSequence_err l i e : getSequence l i = Err e -> e = OtherError.
Proof. unfold getSequence. destruct (nth_error l i) as [[]|]; intro H; congruence. Qed.
Lemma item_err {A} (l : list A) i e : item l i = Err e -> e = IndexError.
Proof. unfold item. destruct (nth_error l i); intro H; congruence. Qed.
Lemma ints_err : forall l e, ints l = Err e -> e = ValueError.
Proof. induction l as [|s l IH]; intros e H; cbn [ints] in H; [discriminate H|]. destruct (int10 s); [|congruence]. apply bind_err in H. destruct H as [H|(? & _ & H)]; [auto|discriminate H]. Qed.
Lemma oid_given_err v e : oid_given v = Err e -> e = ValueError.
Proof. destruct v; cbn [oid_given]; intro H; try discriminate H. apply bind_err in H. destruct H as [H|(? & _ & H)]; [now apply ints_err in H|discriminate H]. Qed.
Lemma utf8_err : forall s e, utf8_encode s = Err e -> e = ValueError.
Proof.
  induction s as [|c s IH]; intros e H; cbn [utf8_encode] in H; [discriminate H|]. apply bind_err in H. destruct H as [H|(? & _ & H)]; [auto|].
  repeat match type of H with context [if ?b then _ else _] => destruct b end; congruence.
Qed.
Lemma blob_err v e : PkcsModel.blob_bytes v = Err e -> In e [ValueError; TypeError].
Proof. destruct v; cbn [PkcsModel.blob_bytes]; intro H; try discriminate H; [destruct (n <? 0); [injection H as <-; cbn; tauto|discriminate H]|apply utf8_err in H; subst e; cbn; tauto|injection H as <-; cbn; tauto]. Qed.
Lemma mfor_err {A} (f : A -> cert -> cert * res unit) (P : Base.exn -> Prop) : (forall x c e, snd (f x c) = Err e -> P e) -> forall l c e, snd (mfor f l c) = Err e -> P e.
Proof. intros Hf l. induction l as [|x l IH]; intros c e H; [discriminate H|]. cbn [mfor] in H. apply mbind_err in H. destruct H as [H|(? & ? & _ & H)]; eauto. Qed.
Ltac chain H := first
  [ discriminate H
  | apply bind_err in H; destruct H as [H|(? & _ & H)]; [try (chain H)|chain H]
  | apply getChildren_err in H; subst; left; cbn; tauto
  | apply getSequence_err in H; subst; left; cbn; tauto
  | apply item_err in H; subst; left; cbn; tauto
  | apply toVal_err in H; left; cbn in *; tauto
  | apply oid_given_err in H; subst; left; cbn; tauto
  | apply blob_err in H; left; cbn in *; tauto ].
Lemma subject_err lp fl n c e : snd (decode_subject fl n c) = Err e -> dec_err lp e.
Proof. intro H. apply mbind_err in H. destruct H as [H|(? & ? & _ & H)]; [|discriminate H]. unfold mlift in H. cbn [snd] in H. unfold dec_err. chain H. Qed.
Lemma extension_err lp fl n c e : snd (decode_extension fl n c) = Err e -> dec_err lp e.
Proof. intro H. apply mbind_err in H. destruct H as [H|(? & ? & _ & H)]; [|discriminate H]. unfold mlift in H. cbn [snd] in H. unfold dec_err. chain H. Qed.
Lemma parse_err b e : bytes_ok b -> node_parse b 0 = Err e -> In e [OtherError; IndexError].
Proof. intros B H. destruct (C59_safe b 0 e B H) as [-> | ->]; cbn; tauto. Qed.
Inductive lok : node -> Prop :=
  | lok_leaf t h p : bytes_ok h -> bytes_ok p -> lok (Leaf t h p)
  | lok_seq h s c l : Forall lok l -> lok (Seq h s c l).
Lemma land_byte x : is_byte (Z.land x 255).
Proof. unfold is_byte. change 255 with (Z.ones 8). rewrite Z.land_ones by lia. apply Z.mod_pos_bound. lia. Qed.
Lemma header_bytes t n : is_byte t -> bytes_ok (encodeHeader t n).
Proof.
  intro H. unfold encodeHeader. destruct (n <=? 127) eqn:E; [repeat (apply Forall_cons; [first [exact H|apply land_byte]|]); apply Forall_nil|].
  apply Forall_cons; [exact H|]. apply Forall_cons; [apply land_byte|]. destruct (be_bytes_spec n) as (b & l & -> & B & _); [lia|exact B].
Qed.
Lemma getSize_lok : forall n, lok n -> lok (fst (getSize n)).
Proof.
  intro n. induction n as [t h p|h s c l IH] using node_ind2; intro H; [exact H|]. inversion H as [|? ? ? ? F]; subst. cbn [getSize]. destruct c; cbn [fst]; [|now apply lok_seq]. apply lok_seq. clear H. induction IH as [|x l Hx _ IH]; inversion F; subst; constructor; auto.
Qed.
Lemma encode_bytes : forall f n, lok n -> bytes_ok (snd (encode f n)).
Proof.
  induction f as [|f IH]; intros [t h p|h s c l] H; inversion H as [? ? ? Bh Bp|? ? ? ? F]; subst; cbn [encode snd].
  - apply Forall_app. auto.
  - apply header_bytes. unfold is_byte, T_SEQUENCE. lia.
  - apply Forall_app. auto.
  - apply Forall_app. split; [apply header_bytes; unfold is_byte, T_SEQUENCE; lia|]. clear H. induction F as [|x l Hx _ IHl]; [constructor|]. cbn [map concat]. apply Forall_app. split; [apply IH, getSize_lok, Hx|exact IHl].
Qed.
Lemma decodeLength_bytes : forall k w s r n, bytes_ok w -> decodeLength k w s = Ok (r, n) -> bytes_ok r.
Proof. induction k as [|k IH]; intros w s r n B H; [injection H as <- <-; constructor|]. destruct w as [|b w]; [discriminate H|]. inversion B; subst. cbn [decodeLength] in H. destruct (decodeLength k w (256 * s + b)) as [[r' n']|e] eqn:E; [|discriminate H]. cbn [rbind fst snd] in H. injection H as <- <-. constructor; [assumption|]. eapply IH; eassumption. Qed.
Lemma decodeHeader_bytes w h n : bytes_ok w -> decodeHeader w = Ok (h, n) -> bytes_ok h.
Proof.
  intros B H. unfold decodeHeader in H. destruct w as [|t [|s w]]; try discriminate H. inversion B as [|? ? Ht B']; subst. inversion B' as [|? ? Hs Hw]; subst.
  destruct (negb (Z.land s 128 =? 0)); [|injection H as <- <-; repeat (apply Forall_cons; [assumption|]); apply Forall_nil]. destruct (decodeLength (Z.to_nat (Z.land s 127)) w 0) as [[r n']|e'] eqn:E; [|discriminate H]. cbn [rbind fst snd] in H. injection H as <- <-. repeat (apply Forall_cons; [assumption|]). eapply decodeLength_bytes; eassumption.
Qed.
Lemma slice_bytes w a b : bytes_ok w -> bytes_ok (zslice w a b).
Proof. intro B. unfold zslice. apply (bytes_skipn (Z.to_nat (Z.min a (zlen w)))) in B. revert B. generalize (skipn (Z.to_nat (Z.min a (zlen w))) w). intros l B. unfold bytes_ok in *. rewrite Forall_forall in *. intros x Hx. apply B. match type of Hx with In _ (firstn ?k _) => rewrite <- (firstn_skipn k l) end. apply in_or_app. now left. Qed.
Lemma parse_lok : forall f w n, bytes_ok w -> parse f w = Ok n -> lok n.
Proof.
  induction f as [|f IH]; intros w n B H; destruct w as [|t w]; try discriminate H.
  - destruct (is_leaf_type t) eqn:Et; [|cbn [parse] in H; rewrite Et in H; destruct (t =? T_SEQUENCE); discriminate H].
    rewrite parse_leaf in H by exact Et. destruct (decodeHeader (t :: w)) as [[h m]|e] eqn:E; [|discriminate H]. cbn [rbind fst snd] in H. injection H as <-. apply lok_leaf; [eapply decodeHeader_bytes; eassumption|]. destruct (0 <? m); [now apply slice_bytes|constructor].
  - destruct (is_leaf_type t) eqn:Et.
    { rewrite parse_leaf in H by exact Et. destruct (decodeHeader (t :: w)) as [[h m]|e] eqn:E; [|discriminate H]. cbn [rbind fst snd] in H. injection H as <-. apply lok_leaf; [eapply decodeHeader_bytes; eassumption|]. destruct (0 <? m); [now apply slice_bytes|constructor]. }
    destruct (Z.eqb_spec t T_SEQUENCE) as [->|Ns]; [|cbn [parse] in H; rewrite Et in H; apply Z.eqb_neq in Ns; rewrite Ns in H; discriminate H].
    rewrite parse_seq in H. destruct (decodeHeader (T_SEQUENCE :: w)) as [[h m]|e]; [|discriminate H]. cbn [rbind fst snd] in H. apply (bytes_skipn (length h)) in B.
    revert H B. generalize (S (length (T_SEQUENCE :: w))) (skipn (length h) (T_SEQUENCE :: w)) 0. intros k u acc H B.
    assert (G : forall k u acc l, bytes_ok u -> children f k m u acc = Ok l -> Forall lok l).
    { clear - IH. induction k as [|k IHk]; intros u acc l B H; cbn [children] in H; destruct (acc <? m); try discriminate H; try (injection H as <-; constructor).
      destruct (parse f u) as [c|] eqn:Ep; [|discriminate H]. cbn [rbind] in H. rewrite (surjective_pairing (getSize c)) in H. destruct (children f k m _ _) as [r|] eqn:Ec; [|discriminate H]. cbn [rbind] in H. injection H as <-. constructor; [apply getSize_lok; eapply IH; eassumption|].
      eapply IHk; [|exact Ec]. now apply bytes_skipn. }
    destruct (children f k m u acc) as [l|] eqn:Ec; [|discriminate H]. cbn [rbind] in H. injection H as <-. apply lok_seq. eapply G; eassumption.
Qed.
(** Whatever the content is, only these exceptions are raised: a DER exception, IndexError,
    ValueError, TypeError, SecurityException, or what the loading of an RSA key raises. *)
Theorem C89_safe : forall load_public floor40 c e, (forall b, d_content (ic_data c) = Some b -> bytes_ok b) -> snd (ic_decode load_public floor40 c) = Err e ->
  In e [OtherError; IndexError; ValueError; TypeError; SecurityException] \/ exists k, load_public k = Err e.
Proof.
  intros lp fl c e B H. change (dec_err lp e). unfold ic_decode in H. apply mbind_err in H. destruct H as [H|(root & c1 & Er & H)].
  { unfold mlift in H. cbn [snd] in H. destruct (d_content (ic_data c)) as [b|]; [|injection H as <-; left; cbn; tauto]. cbn [rbind] in H. apply bind_err in H. destruct H as [H|(? & _ & H)]; [|unfold dec_err; chain H].
    apply parse_err in H; [|now apply B]. left; cbn in *; tauto. }
  assert (Fl : Forall lok root).
  { unfold mlift in Er. injection Er as _ Er. destruct (d_content (ic_data c)) as [b|]; [|discriminate Er]. cbn [rbind] in Er. destruct (node_parse b 0) as [n|] eqn:Ep; [|discriminate Er]. cbn [rbind] in Er. unfold node_parse in Ep. apply parse_lok in Ep; [|cbn [skipn]; now apply B]. destruct n; [discriminate Er|]. injection Er as <-. now inversion Ep. }
  clear Er B. apply mbind_err in H. destruct H as [H|(validity & c2 & _ & H)]; [unfold mlift in H; cbn [snd] in H; unfold dec_err; chain H|].
  assert (T : forall i e, (x <-- item validity i ;; v <-- node_toVal fl x ;; as_time v) = Err e -> dec_err lp e).
  { intros i e' K. apply bind_err in K. destruct K as [K|(? & _ & K)]; [unfold dec_err; chain K|]. apply bind_err in K. destruct K as [K|(v & _ & K)]; [unfold dec_err; chain K|]. destruct v; try discriminate K; injection K as <-; left; cbn; tauto. }
  apply mbind_err in H. destruct H as [H|(nb & c3 & _ & H)]; [unfold mlift in H; cbn [snd] in H; eauto|]. apply mbind_err in H. destruct H as [H|(? & c4 & _ & H)]; [discriminate H|].
  apply mbind_err in H. destruct H as [H|(na & c5 & _ & H)]; [unfold mlift in H; cbn [snd] in H; eauto|]. apply mbind_err in H. destruct H as [H|(? & c6 & _ & H)]; [discriminate H|].
  apply mbind_err in H. destruct H as [H|(subs & c7 & _ & H)]; [unfold mlift in H; cbn [snd] in H; unfold dec_err; chain H|].
  apply mbind_err in H. destruct H as [H|(? & c8 & _ & H)]; [eapply (mfor_err _ (dec_err lp)); [|exact H]; intros; eapply subject_err; eassumption|].
  apply mbind_err in H. destruct H as [H|(key & c9 & _ & H)].
  { unfold mlift in H. cbn [snd] in H. apply bind_err in H. destruct H as [H|(k & Ek & H)]; [unfold dec_err; chain H|].
    assert (Bk : bytes_ok (snd (node_encode k))). { unfold item in Ek. destruct (nth_error root 2) as [xk|] eqn:En; [|discriminate Ek]. injection Ek as <-. apply encode_bytes. rewrite Forall_forall in Fl. apply Fl. eapply nth_error_In; exact En. }
    revert H Bk. generalize (snd (node_encode k)). intros kd H Bk. unfold pk_new in H. apply bind_err in H. destruct H as [H|(v & _ & H)].
    - match type of H with match ?m with _ => _ end = _ => assert (Q : forall xe, m = Err xe -> dec_err lp xe) end.
      { intros xe K. apply bind_err in K. destruct K as [K|(? & _ & K)]; [apply parse_err in K; [|exact Bk]; left; cbn in *; tauto|]. unfold dec_err; chain K. }
      match type of H with match ?m with _ => _ end = _ => destruct m as [v|xe] eqn:Em end; [discriminate H|]. specialize (Q xe eq_refl). destruct xe; try (injection H as <-; exact Q). injection H as <-. left; cbn; tauto.
    - destruct (is_oid_str v RSA_ENCRYPTION_OID); [apply bind_err in H; destruct H as [H|(? & _ & H)]; [right; eauto|discriminate H]|]. destruct (is_oid_str v EC_ENCRYPTION_OID); [discriminate H|]. destruct v; injection H as <-; left; cbn; tauto. }
  apply mbind_err in H. destruct H as [H|(? & c10 & _ & H)]; [discriminate H|]. destruct (3 <? zlen root); [|discriminate H].
  apply mbind_err in H. destruct H as [H|(exts & c11 & _ & H)]; [unfold mlift in H; cbn [snd] in H; unfold dec_err; chain H|]. eapply (mfor_err _ (dec_err lp)); [|exact H]. intros. eapply extension_err; eassumption.
Qed.
Print Assumptions C89_public_key.
Print Assumptions C89_encode.
Print Assumptions C89_decode.
Print Assumptions C89_round_trip.
Print Assumptions C89_wire_round_trip.
Print Assumptions C89_key_name.
Print Assumptions C89_set_name.
Print Assumptions C89_set_name_refuted.
Print Assumptions C89_text_refuted.
Print Assumptions C89_decode_twice_refuted.
Print Assumptions C89_safe.
