(** * C98: BasicIdentityStorage *)
From Verif Require Import Base BaseLemmas NameModel NameSpec NameProofs UriModel UriSpec UriProofs UriProps SinfoProps BisModel BisSpec BisProofs BisStep BisSim.

Lemma held : forall cs, Forall proper cs -> rep (run cs) (history cs) /\ sound (history cs).
Proof.
  assert (G : forall cs s w, rep s w -> sound w -> Forall proper cs -> rep (fold_left (fun s c => fst (do_call c s)) cs s) (fold_left (fun w c => meaning c w) cs w) /\ sound (fold_left (fun w c => meaning c w) cs w)).
  { induction cs as [|c cs IH]; intros s w R W P; [auto|]. inversion P as [|? ? P1 P2]; subst. cbn [fold_left]. destruct (step_sim c s w R W P1) as (A & B & _). apply IH; assumption. }
  intros cs P. apply G; [| |exact P].
  - split; [|split]; intros r; cbn; (split; [intros []|]); [intros (? & ? & [] & _)|intros (? & ? & ? & ? & ? & [] & _)|intros (? & ? & ? & ? & [] & _)].
  - split; cbn; intros; contradiction.
Qed.

(** The answers to what exists are those of the history *)
Theorem C98_exists : forall cs, Forall proper cs ->
  (forall i, plain i -> doesIdentityExist i (run cs) = true <-> has_id (history cs) i) /\
  (forall k, key_like k -> exists b, doesKeyExist k (run cs) = Ok b /\ (b = true <-> has_key (history cs) k)) /\
  (forall n, plain n -> doesCertificateExist n (run cs) = true <-> has_cert (history cs) n).
Proof.
  intros cs P. destruct (held cs P) as [R W]. split; [|split].
  - intros i Pi. apply (id_in _ _ R W i Pi).
  - intros k Pk. apply (key_in _ _ R W k Pk).
  - intros n Pn. apply (cert_in _ _ R W n Pn).
Qed.
(** Exactly what a call was given first is what is answered, and for the rest SecurityException *)
Theorem C98_get : forall cs, Forall proper cs ->
  (forall k x, key_like k -> getKey k (run cs) = Ok x <-> exists t d a, w_key (history cs) k t x d a) /\
  (forall n x, plain n -> getCertificate n (run cs) = Ok x <-> exists k d, w_cert (history cs) n k x d) /\
  (forall k e, getKey k (run cs) = Err e -> e = SecurityException) /\
  (forall n e, getCertificate n (run cs) = Err e -> e = SecurityException).
Proof.
  intros cs P. destruct (held cs P) as [(R1 & R2 & R3) W]. split; [|split; [|split]].
  - intros k x Pk. unfold getKey. rewrite (split_ok k) by apply Pk. destruct (filter (is_key (kid k)) (keys (run cs))) as [|r l] eqn:E.
    + split; [intros X; discriminate X|]. intros (t & d & a & A). assert (I : In (krow k t x d a) []) by (rewrite <- E; apply filter_In; split; [apply R2; exists k, t, x, d, a; auto|apply w_is_key; auto]). destruct I.
    + assert (I : In r (r :: l)) by (left; reflexivity). rewrite <- E in I. apply filter_In in I. destruct I as [I F]. apply R2 in I. destruct I as (k' & t & x' & d & a & A & ->). apply w_is_key in F; [|exact Pk|exact (s_key _ W _ _ _ _ _ A)]. subst k'. cbn [k_der krow]. split; [intros [= <-]; eauto|]. intros (t' & d' & a' & B). destruct (s_keyf _ W _ _ _ _ _ _ _ _ _ A B) as (_ & -> & _). reflexivity.
  - intros n x Pn. unfold getCertificate. destruct (filter (is_cert (uri n)) (certs (run cs))) as [|r l] eqn:E.
    + split; [intros X; discriminate X|]. intros (k & d & A). assert (I : In (crow n k x d) []) by (rewrite <- E; apply filter_In; split; [apply R3; exists n, k, x, d; auto|apply w_is_cert; auto]). destruct I.
    + assert (I : In r (r :: l)) by (left; reflexivity). rewrite <- E in I. apply filter_In in I. destruct I as [I F]. apply R3 in I. destruct I as (n' & k & x' & d & A & ->). apply w_is_cert in F; [|exact Pn|exact (proj1 (proj1 (s_cert _ W _ _ _ _ A)))]. subst n'. cbn [c_data crow]. split; [intros [= <-]; eauto|]. intros (k' & d' & B). destruct (s_certf _ W _ _ _ _ _ _ _ A B) as (_ & -> & _). reflexivity.
  - intros k e. unfold getKey. destruct (split_key k) as [u|]; [|congruence]. destruct (filter _ _); congruence.
  - intros n e. unfold getCertificate. destruct (filter _ _); congruence.
Qed.

Lemma parse : forall n, plain n -> n_set (uri n) = Ok n.
Proof. intros n P. apply uri_set, plain_ok, P. Qed.
(** The defaults; a key name is the name of the identity and a component that holds the ESCAPED text *)
Theorem C98_defaults : forall cs, Forall proper cs ->
  (forall n, getDefaultIdentity (run cs) = Ok n <-> w_id (history cs) n true) /\
  (forall k n, key_like k -> getDefaultCertificateNameForKey k (run cs) = Ok n <-> exists x, w_cert (history cs) n k x true) /\
  (forall i n, plain i -> getDefaultKeyNameForIdentity i (run cs) = Ok n <-> exists c t x a, w_key (history cs) (i ++ [c]) t x true a /\ n = i ++ [c_generic (c_toEscapedString c)]) /\
  (forall e, getDefaultIdentity (run cs) = Err e -> e = SecurityException) /\
  (forall k e, key_like k -> getDefaultCertificateNameForKey k (run cs) = Err e -> e = SecurityException) /\
  (forall i e, getDefaultKeyNameForIdentity i (run cs) = Err e -> e = SecurityException).
Proof.
  intros cs P. destruct (held cs P) as [(R1 & R2 & R3) W].
  assert (D1 : (exists n, w_id (history cs) n true /\ getDefaultIdentity (run cs) = Ok n) \/ (~ (exists n, w_id (history cs) n true) /\ getDefaultIdentity (run cs) = Err SecurityException)).
  { unfold getDefaultIdentity. destruct (filter i_default (ids (run cs))) as [|r l] eqn:E.
    - right. split; [|reflexivity]. intros (n & A). assert (I : In (irow n true) []) by (rewrite <- E; apply filter_In; split; [apply R1; exists n, true; auto|reflexivity]). destruct I.
    - left. assert (I : In r (r :: l)) by (left; reflexivity). rewrite <- E in I. apply filter_In in I. destruct I as [I F]. apply R1 in I. destruct I as (n & d & A & ->). cbn [i_default irow] in F. subst d. exists n. split; [exact A|]. apply parse, (s_id _ W _ _ A). }
  assert (D2 : forall k, key_like k -> (exists n x, w_cert (history cs) n k x true /\ getDefaultCertificateNameForKey k (run cs) = Ok n) \/ (~ (exists n x, w_cert (history cs) n k x true) /\ getDefaultCertificateNameForKey k (run cs) = Err SecurityException)).
  { intros k Pk. unfold getDefaultCertificateNameForKey. rewrite (split_ok k) by apply Pk. cbn [rbind]. destruct (filter _ (certs (run cs))) as [|r l] eqn:E.
    - right. split; [|reflexivity]. intros (n & x & A). assert (I : In (crow n k x true) []) by (rewrite <- E; apply filter_In; split; [apply R3; exists n, k, x, true; auto|apply andb_true_iff; split; [apply w_cert_of_key; auto|reflexivity]]). destruct I.
    - left. assert (I : In r (r :: l)) by (left; reflexivity). rewrite <- E in I. apply filter_In in I. destruct I as [I F]. apply R3 in I. destruct I as (n & k' & x & d & A & ->). apply andb_true_iff in F. destruct F as [F D]. cbn [c_default crow] in D. subst d. apply w_cert_of_key in F; [|exact Pk|exact (proj2 (s_cert _ W _ _ _ _ A))]. subst k'. exists n, x. split; [exact A|]. apply parse, (proj1 (s_cert _ W _ _ _ _ A)). }
  assert (D3 : forall i, plain i -> (exists c t x a, w_key (history cs) (i ++ [c]) t x true a /\ getDefaultKeyNameForIdentity i (run cs) = Ok (i ++ [c_generic (c_toEscapedString c)])) \/ (~ (exists c t x a, w_key (history cs) (i ++ [c]) t x true a) /\ getDefaultKeyNameForIdentity i (run cs) = Err SecurityException)).
  { intros i Pi. unfold getDefaultKeyNameForIdentity. destruct (filter _ (keys (run cs))) as [|r l] eqn:E.
    - right. split; [|reflexivity]. intros (c & t & x & a & A). assert (I : In (krow (i ++ [c]) t x true a) []) by (rewrite <- E; apply filter_In; split; [apply R2; exists (i ++ [c]), t, x, true, a; auto|apply andb_true_iff; split; [apply w_key_of_id; [exact Pi|exact (s_key _ W _ _ _ _ _ A)|apply removelast_last]|reflexivity]]). destruct I.
    - left. assert (I : In r (r :: l)) by (left; reflexivity). rewrite <- E in I. apply filter_In in I. destruct I as [I F]. apply R2 in I. destruct I as (k & t & x & d & a & A & ->). apply andb_true_iff in F. destruct F as [F D]. cbn [k_default krow] in D. subst d. pose proof (s_key _ W _ _ _ _ _ A) as Pk. apply w_key_of_id in F; [|exact Pi|exact Pk].
      exists (last k c0), t, x, a. assert (Ek : k = i ++ [last k c0]) by (rewrite <- F; apply app_removelast_last, Pk). rewrite <- Ek. split; [exact A|reflexivity]. }
  split; [|split; [|split; [|split; [|split]]]].
  - intros n. destruct D1 as [(m & A & ->)|[N ->]]; (split; [|]); [intros [= <-]; exact A|intros B; f_equal; exact (s_id1 _ W _ _ A B)|intros X; discriminate X|intros B; exfalso; eauto].
  - intros k n Pk. destruct (D2 k Pk) as [(m & x & A & ->)|[N ->]]; (split; [|]); [intros [= <-]; eauto|intros [x' B]; f_equal; exact (s_cert1 _ W _ _ _ _ _ A B)|intros X; discriminate X|intros [x B]; exfalso; eauto].
  - intros i n Pi. destruct (D3 i Pi) as [(c & t & x & a & A & ->)|[N ->]]; (split; [|]); [intros [= <-]; eauto 8| |intros X; discriminate X|intros (c & t & x & a & B & _); exfalso; eauto 8].
    intros (c' & t' & x' & a' & B & ->). assert (E : i ++ [c] = i ++ [c']) by (apply (s_key1 _ W _ _ _ _ _ _ _ _ A B); rewrite !removelast_last; reflexivity). apply app_inj_tail in E. destruct E as [_ ->]. reflexivity.
  - intros e. destruct D1 as [(m & A & ->)|[N ->]]; congruence.
  - intros k e Pk. destruct (D2 k Pk) as [(m & x & A & ->)|[N ->]]; congruence.
  - intros i e. unfold getDefaultKeyNameForIdentity. destruct (filter _ _); congruence.
Qed.
(** ... so it is the name of the default key if the text needs no escape *)
Theorem C98_default_key : forall cs i v t x a, Forall proper cs -> plain i -> c_toEscapedString (c_generic v) = v ->
  w_key (history cs) (i ++ [c_generic v]) t x true a -> getDefaultKeyNameForIdentity i (run cs) = Ok (i ++ [c_generic v]).
Proof. intros cs i v t x a P Pi E A. apply (C98_defaults cs P); [exact Pi|]. exists (c_generic v), t, x, a. rewrite E. auto. Qed.

Lemma names_in : forall l ns, names_of l = Ok ns -> forall n, In n ns <-> exists u, In u l /\ n_set u = Ok n.
Proof.
  induction l as [|u l IH]; cbn [names_of]; intros ns H n.
  - injection H as <-. split; [intros []|intros (u & [] & _)].
  - destruct (n_set u) as [m|] eqn:E; cbn [rbind] in H; [|discriminate H]. destruct (names_of l) as [ms|] eqn:E2; cbn [rbind] in H; [|discriminate H]. injection H as <-. cbn [In]. rewrite (IH ms eq_refl n). split.
    + intros [->|(v & A & B)]; [exists u; auto|exists v; auto].
    + intros (v & [->|A] & B); [left; congruence|right; exists v; auto].
Qed.
Lemma names_ok : forall l, (forall u, In u l -> exists n, n_set u = Ok n) -> exists ns, names_of l = Ok ns.
Proof.
  induction l as [|u l IH]; intros H; [exists []; reflexivity|]. destruct (H u (or_introl eq_refl)) as [n E]. destruct IH as [ns E2]; [intros v A; apply H; right; exact A|]. exists (n :: ns). cbn [names_of]. rewrite E. cbn [rbind]. rewrite E2. reflexivity.
Qed.
(** The lists of names *)
Theorem C98_lists : forall cs, Forall proper cs ->
  (forall d, exists l, getAllIdentities d (run cs) = Ok l /\ forall n, In n l <-> w_id (history cs) n d) /\
  (forall k d, key_like k -> exists l, getAllCertificateNamesOfKey k d (run cs) = Ok l /\ forall n, In n l <-> exists x, w_cert (history cs) n k x d) /\
  (forall i d n, plain i -> In n (getAllKeyNamesOfIdentity i d (run cs)) <-> exists c t x a, w_key (history cs) (i ++ [c]) t x d a /\ n = i ++ [c_generic (c_toEscapedString c)]).
Proof.
  intros cs P. destruct (held cs P) as [(R1 & R2 & R3) W]. split; [|split].
  - intros d. unfold getAllIdentities.
    assert (Q : forall u, In u (map i_name (filter (fun r => Bool.eqb (i_default r) d) (ids (run cs)))) <-> exists n, w_id (history cs) n d /\ u = uri n).
    { intros u. rewrite in_map_iff. split.
      - intros (r & <- & A). apply filter_In in A. destruct A as [A B]. apply R1 in A. destruct A as (n & d' & A & ->). apply Bool.eqb_prop in B. cbn [i_default irow] in B. subst d'. exists n. auto.
      - intros (n & A & ->). exists (irow n d). split; [reflexivity|]. apply filter_In. split; [apply R1; exists n, d; auto|apply Bool.eqb_reflx]. }
    destruct (names_ok (map i_name (filter (fun r => Bool.eqb (i_default r) d) (ids (run cs))))) as [l E].
    { intros u A. apply Q in A. destruct A as (n & A & ->). exists n. apply parse, (s_id _ W _ _ A). }
    exists l. split; [exact E|]. intros n. rewrite (names_in _ _ E n). split.
    + intros (u & A & B). apply Q in A. destruct A as (m & A & ->). rewrite (parse m (s_id _ W _ _ A)) in B. injection B as <-. exact A.
    + intros A. exists (uri n). split; [apply Q; eauto|apply parse, (s_id _ W _ _ A)].
  - intros k d Pk. unfold getAllCertificateNamesOfKey. rewrite (split_ok k) by apply Pk. cbn [rbind].
    assert (Q : forall u, In u (map c_name (filter (fun r => Bool.eqb (c_default r) d && cert_of_key (kid k) r) (certs (run cs)))) <-> exists n x, w_cert (history cs) n k x d /\ u = uri n).
    { intros u. rewrite in_map_iff. split.
      - intros (r & <- & A). apply filter_In in A. destruct A as [A B]. apply R3 in A. destruct A as (n & k' & x & d' & A & ->). apply andb_true_iff in B. destruct B as [B C]. apply Bool.eqb_prop in B. cbn [c_default crow] in B. subst d'. apply w_cert_of_key in C; [|exact Pk|exact (proj2 (s_cert _ W _ _ _ _ A))]. subst k'. exists n, x. auto.
      - intros (n & x & A & ->). exists (crow n k x d). split; [reflexivity|]. apply filter_In. split; [apply R3; exists n, k, x, d; auto|]. apply andb_true_iff. split; [apply Bool.eqb_reflx|apply w_cert_of_key; auto]. }
    destruct (names_ok (map c_name (filter (fun r => Bool.eqb (c_default r) d && cert_of_key (kid k) r) (certs (run cs))))) as [l E].
    { intros u A. apply Q in A. destruct A as (n & x & A & ->). exists n. apply parse, (proj1 (s_cert _ W _ _ _ _ A)). }
    exists l. split; [exact E|]. intros n. rewrite (names_in _ _ E n). split.
    + intros (u & A & B). apply Q in A. destruct A as (m & x & A & ->). rewrite (parse m) in B by apply (proj1 (s_cert _ W _ _ _ _ A)). injection B as <-. eauto.
    + intros [x A]. exists (uri n). split; [apply Q; eauto|apply parse, (proj1 (s_cert _ W _ _ _ _ A))].
  - intros i d n Pi. unfold getAllKeyNamesOfIdentity. rewrite in_map_iff. split.
    + intros (r & <- & A). apply filter_In in A. destruct A as [A B]. apply R2 in A. destruct A as (k & t & x & d' & a & A & ->). apply andb_true_iff in B. destruct B as [B C]. apply Bool.eqb_prop in B. cbn [k_default krow] in B. subst d'. pose proof (s_key _ W _ _ _ _ _ A) as Pk. apply w_key_of_id in C; [|exact Pi|exact Pk].
      exists (last k c0), t, x, a. assert (Ek : k = i ++ [last k c0]) by (rewrite <- C; apply app_removelast_last, Pk). rewrite <- Ek. split; [exact A|reflexivity].
    + intros (c & t & x & a & A & ->). exists (krow (i ++ [c]) t x d a). split; [unfold krow, kid; cbn [k_id snd]; rewrite last_last; reflexivity|]. apply filter_In. split; [apply R2; exists (i ++ [c]), t, x, d, a; auto|]. apply andb_true_iff. split; [apply Bool.eqb_reflx|]. apply w_key_of_id; [exact Pi|exact (s_key _ W _ _ _ _ _ A)|apply removelast_last].
Qed.

(** What is held fits together after every history: a key has its identity, a certificate its key, and
    a default exists *)
Theorem C98_integrity : forall cs, Forall proper cs ->
  (forall k, key_like k -> doesKeyExist k (run cs) = Ok true -> doesIdentityExist (identity k) (run cs) = true) /\
  (forall n k d l, key_like k -> getAllCertificateNamesOfKey k d (run cs) = Ok l -> In n l -> doesCertificateExist n (run cs) = true /\ doesKeyExist k (run cs) = Ok true) /\
  (forall n, getDefaultIdentity (run cs) = Ok n -> doesIdentityExist n (run cs) = true) /\
  (forall k n, key_like k -> getDefaultCertificateNameForKey k (run cs) = Ok n -> doesCertificateExist n (run cs) = true /\ doesKeyExist k (run cs) = Ok true).
Proof.
  intros cs P. destruct (held cs P) as [R W]. destruct (C98_exists cs P) as (E1 & E2 & E3). destruct (C98_defaults cs P) as (D1 & D2 & _). destruct (C98_lists cs P) as (_ & L2 & _).
  assert (K : forall k, key_like k -> has_key (history cs) k -> doesKeyExist k (run cs) = Ok true) by (intros k Pk H; destruct (E2 k Pk) as (b & -> & Hb); f_equal; apply Hb; exact H).
  assert (C : forall n k x d, w_cert (history cs) n k x d -> doesCertificateExist n (run cs) = true /\ doesKeyExist k (run cs) = Ok true).
  { intros n k x d A. destruct (s_cert _ W _ _ _ _ A) as [Pn Pk]. split; [apply E3; [apply Pn|exists k, x, d; exact A]|]. apply K; [exact Pk|exact (s_certkey _ W _ _ _ _ A)]. }
  split; [|split; [|split]].
  - intros k Pk H. destruct (E2 k Pk) as (b & Eb & Hb). rewrite H in Eb. injection Eb as <-. destruct (proj1 Hb eq_refl) as (t & x & d & a & A). apply E1; [apply plain_identity, Pk|exact (s_keyid _ W _ _ _ _ _ A)].
  - intros n k d l Pk H I. destruct (L2 k d Pk) as (l' & El & Hl). rewrite H in El. injection El as <-. apply Hl in I. destruct I as [x A]. exact (C _ _ _ _ A).
  - intros n H. apply D1 in H. apply E1; [exact (s_id _ W _ _ H)|exists true; exact H].
  - intros k n Pk H. apply D2 in H; [|exact Pk]. destruct H as [x A]. exact (C _ _ _ _ A).
Qed.
(** A call with names that have a URI raises for one reason only, and then changes nothing *)
Theorem C98_raises : forall cs c, Forall proper cs -> proper c ->
  (forall e, snd (do_call c (run cs)) = Err e -> e = SecurityException /\ fst (do_call c (run cs)) = run cs) /\
  (snd (do_call c (run cs)) = Err SecurityException <-> exists k i, c = SetDefaultKey k (Some i) /\ i <> [] /\ i <> identity k).
Proof.
  intros cs c P Pc. destruct (held cs P) as [R W]. destruct (step_sim c _ _ R W Pc) as (_ & _ & E). split.
  - intros e H. rewrite H in E. destruct c as [i|k t x|c|k|n|i|i|k [i|]|k n|k b]; try discriminate E. cbn [do_call]. unfold setDefaultKeyNameForIdentity. rewrite (split_ok k) by apply Pc. destruct (negb (zlen i =? 0) && negb (n_equals i (identity k))); [|discriminate E]. split; [congruence|reflexivity].
  - rewrite E. split.
    + destruct c as [i|k t x|c|k|n|i|i|k [i|]|k n|k b]; try (intros X; discriminate X). destruct (negb (zlen i =? 0) && negb (n_equals i (identity k))) eqn:B; [|intros X; discriminate X]. intros _. exists k, i. split; [reflexivity|]. destruct Pc as [Pk Pi]. pose proof (check_dec k (Some i) Pi (proj1 Pk)) as D. cbv iota in D. rewrite B in D.
      split; intros ->; (assert (X : true = false) by (apply D; auto); discriminate X).
    + intros (k & i & -> & N1 & N2). destruct Pc as [Pk Pi]. pose proof (check_dec k (Some i) Pi (proj1 Pk)) as D. cbv iota in D. destruct (negb (zlen i =? 0) && negb (n_equals i (identity k))); [reflexivity|]. destruct (proj1 D eq_refl) as [X|[X|X]]; [discriminate X|injection X as ->; contradiction|injection X as ->; contradiction].
Qed.
(** The first key and certificate of a name stay until they are deleted *)
Theorem C98_first_stays : forall cs, Forall proper cs ->
  (forall k t x y, key_like k -> getKey k (run cs) = Ok y -> getKey k (run (cs ++ [AddKey k t x])) = Ok y) /\
  (forall c y, key_like (x_name c) -> key_like (x_key c) -> getCertificate (x_name c) (run cs) = Ok y -> getCertificate (x_name c) (run (cs ++ [AddCertificate c])) = Ok y).
Proof.
  intros cs P. destruct (C98_get cs P) as (G1 & G2 & _). split.
  - intros k t x y Pk H. assert (P' : Forall proper (cs ++ [AddKey k t x])) by (apply Forall_app; auto). apply (C98_get _ P'); [exact Pk|]. apply G1 in H; [|exact Pk]. destruct H as (t' & d & a & A). exists t', d, a. unfold history. rewrite fold_left_app. left. exact A.
  - intros c y Pn Pk H. assert (P' : Forall proper (cs ++ [AddCertificate c])) by (apply Forall_app; split; [exact P|constructor; [split; assumption|constructor]]). apply (C98_get _ P'); [apply Pn|]. apply G2 in H; [|apply Pn]. destruct H as (k & d & A). exists k, d. unfold history. rewrite fold_left_app. left. exact A.
Qed.
