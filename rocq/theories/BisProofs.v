(** * The rows of the tables are the relations of the specification *)
From Verif Require Import Base BaseLemmas NameModel NameSpec NameProofs UriModel UriSpec UriProofs UriProps SinfoProps BisModel BisSpec.

Lemma plain_ok : forall n, plain n -> uri_ok n.
Proof. intros n P. exists n, []. rewrite app_nil_r. auto. Qed.
Lemma u_inj : forall a b, plain a -> plain b -> uri a = uri b -> a = b.
Proof. intros a b A B. apply uri_inj; apply plain_ok; assumption. Qed.
Lemma comp_dec : forall a b : comp, {a = b} + {a <> b}.
Proof. decide equality; try apply Z.eq_dec. apply list_eq_dec, Z.eq_dec. Qed.
Lemma ndec : forall a b : name, {a = b} + {a <> b}.
Proof. apply list_eq_dec, comp_dec. Qed.

Definition c0 : comp := c_generic [].
Definition kid (k : name) : str * str := (uri (removelast k), c_toEscapedString (last k c0)).
Lemma split_ok : forall k, k <> [] -> split_key k = Ok (kid k).
Proof.
  intros k N. destruct k as [|c p] using rev_ind; [contradiction|]. unfold split_key, kid. rewrite rev_app_distr. cbn [rev app]. rewrite rev_involutive, removelast_last, last_last. reflexivity.
Qed.
Lemma plain_identity : forall k, plain k -> plain (removelast k).
Proof. intros k P. destruct k as [|c p] using rev_ind; [exact P|]. rewrite removelast_last. apply Forall_app in P. apply P. Qed.
Lemma uri_last : forall p c, uri (p ++ [c]) = flat_map (fun c => 47 :: c_toEscapedString c) p ++ 47 :: c_toEscapedString c.
Proof. intros p c. assert (E : uri (p ++ [c]) = flat_map (fun c => 47 :: c_toEscapedString c) (p ++ [c])) by (destruct p; reflexivity). rewrite E, flat_map_app. cbn [flat_map]. rewrite app_nil_r. reflexivity. Qed.
Lemma kid_inj : forall k k', key_like k -> key_like k' -> kid k = kid k' -> k = k'.
Proof.
  intros k k' [P N] [P' N'] E. pose proof P as Q. pose proof P' as Q'. apply plain_identity in Q, Q'. unfold kid in E.
  destruct k as [|c p _] using rev_ind; [contradiction|]. destruct k' as [|c' p' _] using rev_ind; [contradiction|].
  rewrite !removelast_last, !last_last in *. injection E as E1 E2. apply u_inj in E1; [|assumption|assumption]. subst p'. apply u_inj; [exact P|exact P'|]. rewrite !uri_last, E2. reflexivity.
Qed.

Definition irow (n : name) (d : bool) : idrow := IdRow (uri n) d.
Definition krow (k : name) (t : Z) (x : bytes) (d a : bool) : keyrow := KeyRow (fst (kid k)) (snd (kid k)) t x d a.
Definition crow (n k : name) (x : bytes) (d : bool) : certrow := CertRow (uri n) (fst (kid k)) (snd (kid k)) x d.
Definition ids_rep (l : list idrow) (p : name -> bool -> Prop) : Prop := forall r, In r l <-> exists n d, p n d /\ r = irow n d.
Definition keys_rep (l : list keyrow) (p : name -> Z -> bytes -> bool -> bool -> Prop) : Prop := forall r, In r l <-> exists k t x d a, p k t x d a /\ r = krow k t x d a.
Definition certs_rep (l : list certrow) (p : name -> name -> bytes -> bool -> Prop) : Prop := forall r, In r l <-> exists n k x d, p n k x d /\ r = crow n k x d.
Definition rep (s : db) (w : world) : Prop := ids_rep (ids s) (w_id w) /\ keys_rep (keys s) (w_key w) /\ certs_rep (certs s) (w_cert w).

(** The integrity of what is held *)
Record sound (w : world) : Prop := Sound {
  s_id : forall n d, w_id w n d -> plain n;
  s_key : forall k t x d a, w_key w k t x d a -> key_like k;
  s_cert : forall n k x d, w_cert w n k x d -> key_like n /\ key_like k;
  s_idf : forall n d d', w_id w n d -> w_id w n d' -> d = d';
  s_id1 : forall n n', w_id w n true -> w_id w n' true -> n = n';
  s_keyf : forall k t x d a t' x' d' a', w_key w k t x d a -> w_key w k t' x' d' a' -> t = t' /\ x = x' /\ d = d' /\ a = a';
  s_key1 : forall k t x a k' t' x' a', w_key w k t x true a -> w_key w k' t' x' true a' -> removelast k = removelast k' -> k = k';
  s_keyid : forall k t x d a, w_key w k t x d a -> has_id w (removelast k);
  s_certf : forall n k x d k' x' d', w_cert w n k x d -> w_cert w n k' x' d' -> k = k' /\ x = x' /\ d = d';
  s_cert1 : forall n n' k x x', w_cert w n k x true -> w_cert w n' k x' true -> n = n';
  s_certkey : forall n k x d, w_cert w n k x d -> has_key w k }.

(** ** The WHERE clauses *)
Lemma w_is_id : forall i n d, plain i -> plain n -> is_id (uri i) (irow n d) = true <-> n = i.
Proof. intros i n d A B. unfold is_id, irow. cbn [i_name]. rewrite zlist_eqb_eq. split; [apply u_inj; assumption|intros ->; reflexivity]. Qed.
Lemma pair_eqb : forall (a b c d : str), zlist_eqb a c && zlist_eqb b d = true <-> (a, b) = (c, d).
Proof. intros a b c d. rewrite andb_true_iff, !zlist_eqb_eq. split; [intros [-> ->]; reflexivity|intros [= -> ->]; auto]. Qed.
Lemma w_is_key : forall k k' t x d a, key_like k -> key_like k' -> is_key (kid k) (krow k' t x d a) = true <-> k' = k.
Proof. intros k k' t x d a A B. unfold is_key, krow. cbn [k_identity k_id]. rewrite pair_eqb, <- !surjective_pairing. split; [apply kid_inj; assumption|intros ->; reflexivity]. Qed.
Lemma w_key_of_id : forall i k t x d a, plain i -> key_like k -> key_of_id (uri i) (krow k t x d a) = true <-> removelast k = i.
Proof. intros i k t x d a A [B _]. unfold key_of_id, krow. cbn [k_identity kid fst]. rewrite zlist_eqb_eq. split; [apply u_inj; [apply plain_identity; exact B|exact A]|intros ->; reflexivity]. Qed.
Lemma w_cert_of_id : forall i n k x d, plain i -> key_like k -> cert_of_id (uri i) (crow n k x d) = true <-> removelast k = i.
Proof. intros i n k x d A [B _]. unfold cert_of_id, crow. cbn [c_identity kid fst]. rewrite zlist_eqb_eq. split; [apply u_inj; [apply plain_identity; exact B|exact A]|intros ->; reflexivity]. Qed.
Lemma w_cert_of_key : forall k n k' x d, key_like k -> key_like k' -> cert_of_key (kid k) (crow n k' x d) = true <-> k' = k.
Proof. intros k n k' x d A B. unfold cert_of_key, crow. cbn [c_identity c_keyid]. rewrite pair_eqb, <- !surjective_pairing. split; [apply kid_inj; assumption|intros ->; reflexivity]. Qed.
Lemma w_is_cert : forall n n' k x d, plain n -> plain n' -> is_cert (uri n) (crow n' k x d) = true <-> n' = n.
Proof. intros n n' k x d A B. unfold is_cert, crow. cbn [c_name]. rewrite zlist_eqb_eq. split; [apply u_inj; assumption|intros ->; reflexivity]. Qed.
Lemma not_iff : forall (b : bool) (P : Prop), (b = true <-> P) -> (negb b = true <-> ~ P).
Proof. intros b P H. destruct b; cbn; split; intros X; try discriminate X; try reflexivity; [exfalso; apply X, H; reflexivity|intros Y; apply H in Y; discriminate Y]. Qed.

(** ** The statements *)
Lemma some_count : forall A (p : A -> bool) l, (0 <? zlen (filter p l)) = true <-> exists r, In r l /\ p r = true.
Proof.
  intros A p l. rewrite Z.ltb_lt. unfold zlen. split.
  - intros H. destruct (filter p l) as [|r m] eqn:E; [cbn in H; lia|]. exists r. apply filter_In. rewrite E. left. reflexivity.
  - intros [r H]. apply filter_In in H. destruct (filter p l); [destruct H|cbn [length]; lia].
Qed.
Lemma in_update : forall A (p : A -> bool) f l r, In r (update p f l) <-> exists r0, In r0 l /\ r = (if p r0 then f r0 else r0).
Proof. intros A p f l r. unfold update. rewrite in_map_iff. split; intros (x & B & C); exists x; split; auto. Qed.
Lemma in_snoc : forall A (l : list A) x r, In r (l ++ [x]) <-> In r l \/ r = x.
Proof. intros A l x r. rewrite in_app_iff. cbn [In]. split; [intros [?|[?|[]]]; auto|intros [?|?]; auto]. Qed.

Section Step.
Variable s : db.
Variable w : world.
Hypothesis R : rep s w.
Hypothesis W : sound w.
Lemma id_in : forall i, plain i -> doesIdentityExist i s = true <-> has_id w i.
Proof.
  intros i P. destruct R as (R1 & _). unfold doesIdentityExist. rewrite some_count. split.
  - intros (r & I & E). apply R1 in I. destruct I as (n & d & I & ->). apply w_is_id in E; [|exact P|exact (s_id _ W _ _ I)]. subst. exists d. exact I.
  - intros [d I]. exists (irow i d). split; [apply R1; exists i, d; auto|]. apply w_is_id; auto.
Qed.
Lemma key_in : forall k, key_like k -> exists b, doesKeyExist k s = Ok b /\ (b = true <-> has_key w k).
Proof.
  intros k P. destruct R as (_ & R1 & _). unfold doesKeyExist. rewrite (split_ok k) by apply P. cbn [rbind]. eexists. split; [reflexivity|]. rewrite some_count. split.
  - intros (r & I & E). apply R1 in I. destruct I as (n & t & x & d & a & I & ->). apply w_is_key in E; [|exact P|exact (s_key _ W _ _ _ _ _ I)]. subst. exists t, x, d, a. exact I.
  - intros (t & x & d & a & I). exists (krow k t x d a). split; [apply R1; exists k, t, x, d, a; auto|]. apply w_is_key; auto.
Qed.
Lemma cert_in : forall n, plain n -> doesCertificateExist n s = true <-> has_cert w n.
Proof.
  intros i P. destruct R as (_ & _ & R1). unfold doesCertificateExist. rewrite some_count. split.
  - intros (r & I & E). apply R1 in I. destruct I as (n & k & x & d & I & ->). apply w_is_cert in E; [|exact P|exact (proj1 (proj1 (s_cert _ W _ _ _ _ I)))]. subst. exists k, x, d. exact I.
  - intros (k & x & d & I). exists (crow i k x d). split; [apply R1; exists i, k, x, d; auto|]. apply w_is_cert; auto.
Qed.
End Step.
