(** * The simulation *)
From Verif Require Import Base BaseLemmas NameModel NameSpec NameProofs PsyncProofs UriModel UriSpec BisModel BisSpec BisProofs BisStep.

Section Sim.
Variable s : db.
Variable w : world.
Hypothesis R : rep s w.
Hypothesis W : sound w.

Lemma sim_addIdentity : forall i, plain i -> rep (addIdentity i s) (add_id i w).
Proof.
  intros i P. pose proof (id_in s w R W i P) as E. destruct R as (R1 & R2 & R3). unfold addIdentity. destruct (doesIdentityExist i s).
  - split; [|split; assumption]. refine (r_ids_ext _ _ _ R1 _). intros n d. cbn [w_id add_id]. split; [auto|]. intros [A|(-> & -> & B)]; [exact A|]. exfalso. apply B, E. reflexivity.
  - split; [|split; assumption]. cbn [ids]. refine (r_ids_ext _ _ _ (r_ids_add _ _ i R1) _). intros n d. cbn [w_id add_id]. assert (N : ~ has_id w i) by (intros X; apply E in X; discriminate X). split; [intros [A|[-> ->]]; auto|intros [A|(-> & -> & _)]; auto].
Qed.
Lemma sound_id : forall i, plain i -> sound (add_id i w).
Proof.
  intros i P. destruct W as [s_id0 s_key0 s_cert0 s_idf0 s_ido s_keyf0 s_keyo s_keyid0 s_certf0 s_certo s_certkey0]. split; cbn [add_id w_id w_key w_cert]; try assumption.
  - intros n d [A|(-> & _)]; eauto.
  - intros n d d' [A|(-> & -> & A)] [B|(B1 & -> & B)]; eauto; exfalso; [subst; apply B|apply A]; eexists; eassumption.
  - intros n n' [A|(_ & X & _)] [B|(_ & Y & _)]; eauto; congruence.
  - intros k t x d a A. destruct (s_keyid0 _ _ _ _ _ A) as [e X]. exists e. left. exact X.
Qed.
Lemma sim_addKey : forall k t x, key_like k -> rep (fst (addKey k t x s)) (add_key k t x w) /\ snd (addKey k t x s) = Ok tt.
Proof.
  intros k t x P. unfold addKey. rewrite (split_ok k) by apply P. destruct (key_in s w R W k P) as (b & E & Hb). rewrite E. destruct b.
  - split; [|reflexivity]. destruct R as (R1 & R2 & R3). cbn [fst]. assert (X : has_key w k) by (apply Hb; reflexivity). split; [|split; [|exact R3]].
    + refine (r_ids_ext _ _ _ R1 _). intros n d. cbn [w_id add_key add_id]. split; [auto|]. intros [A|(-> & -> & B)]; [exact A|]. destruct X as (t' & x' & d' & a' & X). exfalso. exact (B (s_keyid _ W _ _ _ _ _ X)).
    + refine (r_keys_ext _ _ _ R2 _). intros k' t' x' d' a'. cbn [w_key add_key]. split; [auto|]. intros [A|(_ & _ & _ & _ & _ & B)]; [exact A|contradiction].
  - split; [|reflexivity]. cbv zeta. cbn [fst]. destruct (sim_addIdentity (removelast k) (plain_identity k (proj1 P))) as (R1 & R2 & R3). split; [exact R1|]. split; [|exact R3]. cbn [keys]. change (KeyRow (fst (kid k)) (snd (kid k)) t x false false) with (krow k t x false false).
    assert (N : ~ has_key w k) by (intros X; apply Hb in X; discriminate X). refine (r_keys_ext _ _ _ (r_keys_add _ _ k t x R2) _). intros k' t' x' d a. cbn [w_key add_key add_id]. split; [intros [A|(-> & -> & -> & -> & ->)]; auto 8|intros [A|(-> & -> & -> & -> & -> & _)]; auto 8].
Qed.
Lemma sound_key' : forall k t x, key_like k -> sound (add_key k t x w).
Proof.
  intros k t x P. destruct (sound_id (removelast k) (plain_identity k (proj1 P))) as [s_id0 s_key0 s_cert0 s_idf0 s_ido s_keyf0 s_keyo s_keyid0 s_certf0 s_certo s_certkey0]. split; cbn [add_key w_id w_key w_cert] in *; try assumption.
  - intros k' t' x' d a [A|(-> & _)]; eauto.
  - intros k' t' x' d a t'' x'' d' a' [A|(-> & -> & -> & -> & -> & A)] [B|(B1 & -> & -> & -> & -> & B)]; eauto; [subst; exfalso; apply B; repeat eexists; eassumption|exfalso; apply A; repeat eexists; eassumption].
  - intros k' t' x' a k'' t'' x'' a' [A|(_ & _ & _ & X & _)] [B|(_ & _ & _ & Y & _)]; eauto; congruence.
  - intros k' t' x' d a [A|(-> & _)]; [exact (s_keyid0 _ _ _ _ _ A)|]. pose proof (sim_addIdentity (removelast k) (plain_identity k (proj1 P))) as R'.
    destruct (doesIdentityExist (removelast k) s) eqn:E.
    + apply (id_in s w R W) in E; [|apply plain_identity, P]. destruct E as [e E]. exists e. left. exact E.
    + exists false. right. split; [reflexivity|]. split; [reflexivity|]. intros X. apply (id_in s w R W) in X; [congruence|apply plain_identity, P].
  - intros n k' x' d A. destruct (s_certkey0 _ _ _ _ A) as (a1 & a2 & a3 & a4 & X). exists a1, a2, a3, a4. left. exact X.
Qed.
End Sim.

Lemma valid_plain : forall n, plain n -> Forall c_valid n.
Proof. intros n P. eapply Forall_impl; [|exact P]. intros c [B [[X Y]|(X & Y)]]; (split; [exact B|]); [right; split; [right; right; exact X|exact Y]|left; split; [exact X|exact Y]]. Qed.

Lemma sim_addCert : forall s w c, rep s w -> sound w -> key_like (x_name c) -> key_like (x_key c) -> rep (fst (addCertificate c s)) (add_cert c w) /\ snd (addCertificate c s) = Ok tt /\ sound (add_cert c w).
Proof.
  intros s w c R W Pn Pk. unfold addCertificate. pose proof (sim_addKey s w R W (x_key c) (x_type c) (x_der c) Pk) as [R' E]. pose proof (sound_key' s w R W (x_key c) (x_type c) (x_der c) Pk) as W'.
  destruct (addKey (x_key c) (x_type c) (x_der c) s) as [s' r]. cbn [fst snd] in R', E. subst r. pose proof (cert_in s' _ R' W' (x_name c) (proj1 Pn)) as Hc. change (has_cert (add_key (x_key c) (x_type c) (x_der c) w) (x_name c)) with (has_cert w (x_name c)) in Hc.
  assert (SD : sound (add_cert c w)).
  { destruct W' as [s_id0 s_key0 s_cert0 s_idf0 s_ido s_keyf0 s_keyo s_keyid0 s_certf0 s_certo s_certkey0]. unfold add_cert. cbv zeta. set (w' := add_key _ _ _ w) in *. split; cbn [w_id w_key w_cert] in *; try assumption.
    - intros n k x d [A|(-> & -> & _)]; [exact (s_cert0 _ _ _ _ A)|auto].
    - intros n k x d k' x' d' [A|(-> & -> & -> & -> & A)] [B|(B1 & -> & -> & -> & B)]; [exact (s_certf0 _ _ _ _ _ _ _ A B)|subst; exfalso; apply B; repeat eexists; eassumption|exfalso; apply A; repeat eexists; eassumption|auto].
    - intros n n' k x x' [A|(_ & _ & _ & X & _)] [B|(_ & _ & _ & Y & _)]; [exact (s_certo _ _ _ _ _ A B)|discriminate Y|discriminate X|discriminate X].
    - intros n k x d [A|(_ & -> & _)]; [exact (s_certkey0 _ _ _ _ A)|]. unfold has_key. cbn [w_key]. destruct (key_in s w R W (x_key c) Pk) as (b & _ & Hb). destruct b.
      + assert (X : has_key w (x_key c)) by (apply Hb; reflexivity). destruct X as (a1 & a2 & a3 & a4 & X). exists a1, a2, a3, a4. left. exact X.
      + exists (x_type c), (x_der c), false, false. right. repeat (split; [reflexivity|]). intros X. apply Hb in X. discriminate X. }
  destruct R' as (R1 & R2 & R3). destruct (doesCertificateExist (x_name c) s').
  - split; [|split; [reflexivity|exact SD]]. split; [exact R1|]. split; [exact R2|]. refine (r_certs_ext _ _ _ R3 _). intros n k x d. cbn [w_cert add_cert add_key]. split; [auto|]. intros [A|(_ & _ & _ & _ & B)]; [exact A|]. exfalso. apply B, Hc. reflexivity.
  - rewrite (split_ok (x_key c)) by apply Pk. split; [|split; [reflexivity|exact SD]]. split; [exact R1|]. split; [exact R2|]. cbn [fst certs]. change (CertRow (uri (x_name c)) (fst (kid (x_key c))) (snd (kid (x_key c))) (x_wire c) false) with (crow (x_name c) (x_key c) (x_wire c) false).
    assert (N : ~ has_cert w (x_name c)) by (intros X; apply Hc in X; discriminate X). refine (r_certs_ext _ _ _ (r_certs_add _ _ (x_name c) (x_key c) (x_wire c) R3) _). intros n k x d. cbn [w_cert add_cert add_key]. split; [intros [A|(-> & -> & -> & ->)]; auto 8|intros [A|(-> & -> & -> & -> & _)]; auto 8].
Qed.

(** What a refused check leaves *)
Definition mismatch (c : call) : Prop :=
  match c with SetDefaultKey k (Some i) => i <> [] /\ i <> removelast k | _ => False end.
Lemma check_dec : forall k check, (match check with None => True | Some i => plain i end) -> plain k ->
  match check with None => false | Some i => negb (zlen i =? 0) && negb (n_equals i (removelast k)) end = false <-> (check = None \/ check = Some [] \/ check = Some (removelast k)).
Proof.
  intros k [i|] P K; [|tauto]. pose proof (valid_equals i (removelast k) (valid_plain i P) (valid_plain _ (plain_identity k K))) as E. destruct i as [|c i]; [split; auto|].
  assert (Z0 : zlen (c :: i) =? 0 = false) by (apply Z.eqb_neq; unfold zlen; cbn [length]; lia). rewrite Z0. cbn [negb andb]. destruct (n_equals (c :: i) (removelast k)); cbn [negb].
  - split; [intros _; right; right; f_equal; apply E; reflexivity|reflexivity].
  - split; [intros X; discriminate X|]. intros [X|[X|X]]; try discriminate X. assert (Y : false = true) by (apply E; congruence). discriminate Y.
Qed.

Theorem step_sim : forall c s w, rep s w -> sound w -> proper c -> rep (fst (do_call c s)) (meaning c w) /\ sound (meaning c w) /\ (snd (do_call c s) = if match c with SetDefaultKey k (Some i) => negb (zlen i =? 0) && negb (n_equals i (removelast k)) | _ => false end then Err SecurityException else Ok tt).
Proof.
  intros c s w R W P. pose proof R as (R1 & R2 & R3). pose proof W as WW. destruct c as [i|k t x|c|k|n|i|i|k check|k n|k b]; cbn [do_call meaning proper] in *.
  - split; [apply sim_addIdentity; assumption|split; [apply sound_id; assumption|reflexivity]].
  - destruct (sim_addKey s w R W k t x P) as [A B]. split; [exact A|]. split; [apply (sound_key' s w R W); exact P|exact B].
  - destruct (sim_addCert s w c R W (proj1 P) (proj2 P)) as (A & B & C). auto.
  - unfold deletePublicKeyInfo. rewrite (split_ok k) by apply P. cbn [fst snd]. split; [|split; [|reflexivity]].
    + split; [exact R1|]. split; cbn [keys certs w_key w_cert].
      * apply (r_keys_del _ _ _ (fun k' => k' = k) R2). intros k' t x d a A. apply w_is_key; [exact P|exact (s_key _ W _ _ _ _ _ A)].
      * apply (r_certs_del _ _ _ (fun _ k' => k' = k) R3). intros n k' x d A. apply w_cert_of_key; [exact P|exact (proj2 (s_cert _ W _ _ _ _ A))].
    + destruct WW as [s_id0 s_key0 s_cert0 s_idf0 s_ido s_keyf0 s_keyo s_keyid0 s_certf0 s_certo s_certkey0]. split; cbn [w_id w_key w_cert]; try assumption; intros; repeat match goal with H : _ /\ _ |- _ => destruct H end; eauto. destruct (s_certkey0 _ _ _ _ H0) as (a1 & a2 & a3 & a4 & X). exists a1, a2, a3, a4. split; assumption.
  - destruct n as [|c0 n]; [exfalso; apply (proj2 P); reflexivity|]. cbn [deleteCertificateInfo fst snd]. remember (c0 :: n) as m. split; [|split; [|reflexivity]].
    + split; [exact R1|]. split; [exact R2|]. apply (r_certs_del _ _ _ (fun n' _ => n' = m) R3). intros n' k x d A. apply w_is_cert; [apply P|exact (proj1 (proj1 (s_cert _ W _ _ _ _ A)))].
    + destruct WW as [s_id0 s_key0 s_cert0 s_idf0 s_ido s_keyf0 s_keyo s_keyid0 s_certf0 s_certo s_certkey0]. split; cbn [w_id w_key w_cert]; try assumption; intros; repeat match goal with H : _ /\ _ |- _ => destruct H end; eauto.
  - cbn [fst snd]. split; [|split; [|reflexivity]].
    + split; [|split]; cbn [deleteIdentityInfo ids keys certs w_id w_key w_cert].
      * apply (r_ids_del _ _ _ (fun n => n = i) R1). intros n d A. apply w_is_id; [exact P|exact (s_id _ W _ _ A)].
      * apply (r_keys_del _ _ _ (fun k => removelast k = i) R2). intros k t x d a A. apply w_key_of_id; [exact P|exact (s_key _ W _ _ _ _ _ A)].
      * apply (r_certs_del _ _ _ (fun _ k => removelast k = i) R3). intros n k x d A. apply w_cert_of_id; [exact P|exact (proj2 (s_cert _ W _ _ _ _ A))].
    + destruct WW as [s_id0 s_key0 s_cert0 s_idf0 s_ido s_keyf0 s_keyo s_keyid0 s_certf0 s_certo s_certkey0]. split; cbn [w_id w_key w_cert]; try assumption; intros; repeat match goal with H : _ /\ _ |- _ => destruct H end; eauto.
      * destruct (s_keyid0 _ _ _ _ _ H0) as [e X]. exists e. split; assumption.
      * destruct (s_certkey0 _ _ _ _ H0) as (a1 & a2 & a3 & a4 & X). exists a1, a2, a3, a4. split; assumption.
  - cbn [fst snd]. split; [|split; [|reflexivity]].
    + split; [|split; [exact R2|exact R3]]. apply (r_ids_set _ _ _ (fun n => n = i) R1); [reflexivity|]. intros n d A. apply w_is_id; [exact P|exact (s_id _ W _ _ A)].
    + destruct WW as [s_id0 s_key0 s_cert0 s_idf0 s_ido s_keyf0 s_keyo s_keyid0 s_certf0 s_certo s_certkey0]. split; cbn [w_id w_key w_cert]; try assumption.
      * intros n d (d0 & A & _). eauto.
      * intros n d d' (d0 & A & [X _]) (d1 & B & [Y _]). specialize (X Logic.I). specialize (Y Logic.I). destruct d, d'; try reflexivity; exfalso; [assert (T : false = true) by (apply Y, X; reflexivity)|assert (T : false = true) by (apply X, Y; reflexivity)]; discriminate T.
      * intros n n' (d0 & A & [X _]) (d1 & B & [Y _]). specialize (X Logic.I). specialize (Y Logic.I). destruct X as [X _], Y as [Y _]. rewrite X, Y; reflexivity.
      * intros k t x d a A. destruct (s_keyid0 _ _ _ _ _ A) as [e X]. destruct (ndec (removelast k) i) as [E|N]; [exists true|exists false]; exists e; (split; [exact X|]); (split; [intros _|tauto]); (split; [intros T|intros T]); congruence.
  - destruct P as [P Pc]. unfold setDefaultKeyNameForIdentity. rewrite (split_ok k) by apply P. pose proof (check_dec k check Pc (proj1 P)) as Ck. set (g := match check with None => false | Some i => _ end) in *.
    set (OK := check = None \/ check = Some [] \/ check = Some (removelast k)) in *.
    split; [|split].
    + destruct g.
      * assert (N : ~ OK) by (intros X; apply Ck in X; discriminate X). cbn [fst]. split; [exact R1|]. split; [|exact R3]. refine (r_keys_ext _ _ _ R2 _). intros k' t x d a. cbn [w_key]. split; [intros A; exists d; split; [exact A|]; split; [tauto|reflexivity]|]. intros (d0 & A & [_ B]). rewrite B by tauto. exact A.
      * assert (O : OK) by (apply Ck; reflexivity). cbn [fst]. split; [exact R1|]. split; [|exact R3]. cbn [keys w_key]. change (fst (kid k)) with (uri (removelast k)).
        apply (r_keys_set _ _ _ _ (fun k' => k' = k) (fun k' => removelast k' = removelast k /\ OK) R2); [reflexivity| |].
        -- intros k' t x d a A. rewrite w_key_of_id; [tauto|apply plain_identity, P|exact (s_key _ W _ _ _ _ _ A)].
        -- intros k' t x d a A. rewrite w_is_key; [|exact P|exact (s_key _ W _ _ _ _ _ A)]. split; [intros ->; auto|tauto].
    + destruct WW as [s_id0 s_key0 s_cert0 s_idf0 s_ido s_keyf0 s_keyo s_keyid0 s_certf0 s_certo s_certkey0]. split; cbn [w_id w_key w_cert]; try assumption.
      * intros k' t x d a (d0 & A & _). eauto.
      * intros k' t x d a t' x' d' a' (d0 & A & [X1 X2]) (d1 & B & [Y1 Y2]). destruct (s_keyf0 _ _ _ _ _ _ _ _ _ A B) as (-> & -> & -> & ->). repeat (split; [reflexivity|]). split; [|reflexivity].
        destruct g; [assert (N : ~ OK) by (intros X; apply Ck in X; discriminate X); rewrite X2, Y2 by tauto; reflexivity|]. assert (O : OK) by (apply Ck; reflexivity). destruct (ndec (removelast k') (removelast k)) as [E|N]; [|rewrite X2, Y2 by tauto; reflexivity]. specialize (X1 (conj E O)). specialize (Y1 (conj E O)). destruct d, d'; try reflexivity; exfalso; [assert (T : false = true) by (apply Y1, X1; reflexivity)|assert (T : false = true) by (apply X1, Y1; reflexivity)]; discriminate T.
      * intros k1 t x a k2 t' x' a' (d0 & A & [X1 X2]) (d1 & B & [Y1 Y2]) E.
        destruct g; [assert (N : ~ OK) by (intros X; apply Ck in X; discriminate X); rewrite <- X2 in A by tauto; rewrite <- Y2 in B by tauto; eauto|]. assert (O : OK) by (apply Ck; reflexivity). destruct (ndec (removelast k1) (removelast k)) as [E1|N].
        -- assert (E2 : removelast k2 = removelast k) by congruence. destruct (X1 (conj E1 O)) as [X _], (Y1 (conj E2 O)) as [Y _]. rewrite X, Y; reflexivity.
        -- assert (N2 : removelast k2 <> removelast k) by congruence. rewrite <- X2 in A by tauto. rewrite <- Y2 in B by tauto. eauto.
      * intros k' t x d a (d0 & A & _). eauto.
      * intros n k' x d A. destruct (s_certkey0 _ _ _ _ A) as (a1 & a2 & a3 & a4 & X).
        destruct g; [assert (N : ~ OK) by (intros Y; apply Ck in Y; discriminate Y); exists a1, a2, a3, a4, a3; split; [exact X|split; [tauto|reflexivity]]|]. assert (O : OK) by (apply Ck; reflexivity).
        destruct (ndec (removelast k') (removelast k)) as [E|N]; [|exists a1, a2, a3, a4, a3; split; [exact X|split; [tauto|reflexivity]]]. destruct (ndec k' k) as [E'|N']; [exists a1, a2, true, a4, a3|exists a1, a2, false, a4, a3]; (split; [exact X|]); (split; [intros _|tauto]); split; try reflexivity; try congruence; auto.
    + destruct check as [i|]; [|reflexivity]. subst g. cbv beta iota. destruct (negb (zlen i =? 0) && negb (n_equals i (removelast k))); reflexivity.
  - destruct P as [P Pn]. unfold setDefaultCertificateNameForKey. rewrite (split_ok k) by apply P. cbn [fst snd]. split; [|split; [|reflexivity]].
    + split; [exact R1|]. split; [exact R2|]. cbn [certs w_cert]. apply (r_certs_set _ _ _ _ (fun n' _ => n' = n) (fun _ k' => k' = k) R3); [reflexivity| |].
      * intros n' k' x d A. apply w_cert_of_key; [exact P|exact (proj2 (s_cert _ W _ _ _ _ A))].
      * intros n' k' x d A. rewrite andb_true_iff, w_cert_of_key, w_is_cert; [tauto|exact Pn|exact (proj1 (proj1 (s_cert _ W _ _ _ _ A)))|exact P|exact (proj2 (s_cert _ W _ _ _ _ A))].
    + destruct WW as [s_id0 s_key0 s_cert0 s_idf0 s_ido s_keyf0 s_keyo s_keyid0 s_certf0 s_certo s_certkey0]. split; cbn [w_id w_key w_cert]; try assumption.
      * intros n' k' x d (d0 & A & _). eauto.
      * intros n' k1 x d k2 x' d' (d0 & A & [X1 X2]) (d1 & B & [Y1 Y2]). destruct (s_certf0 _ _ _ _ _ _ _ A B) as (-> & -> & ->). repeat (split; [reflexivity|]). destruct (ndec k2 k) as [E|N]; [|rewrite X2, Y2 by exact N; reflexivity]. specialize (X1 E). specialize (Y1 E). destruct d, d'; try reflexivity; exfalso; [assert (T : false = true) by (apply Y1, X1; reflexivity)|assert (T : false = true) by (apply X1, Y1; reflexivity)]; discriminate T.
      * intros n1 n2 k' x x' (d0 & A & [X1 X2]) (d1 & B & [Y1 Y2]). destruct (ndec k' k) as [E|N]; [destruct (X1 E) as [X _], (Y1 E) as [Y _]; rewrite X, Y; reflexivity|]. rewrite <- X2 in A by exact N. rewrite <- Y2 in B by exact N. eauto.
      * intros n' k' x d (d0 & A & _). eauto.
  - unfold updateKeyStatus. rewrite (split_ok k) by apply P. cbn [fst snd]. split; [|split; [|reflexivity]].
    + split; [exact R1|]. split; [|exact R3]. cbn [keys w_key]. apply (r_keys_act _ _ _ b (fun k' => k' = k) R2). intros k' t x d a A. apply w_is_key; [exact P|exact (s_key _ W _ _ _ _ _ A)].
    + destruct WW as [s_id0 s_key0 s_cert0 s_idf0 s_ido s_keyf0 s_keyo s_keyid0 s_certf0 s_certo s_certkey0]. split; cbn [w_id w_key w_cert]; try assumption.
      * intros k' t x d a (d0 & A & _). eauto.
      * intros k' t x d a t' x' d' a' (a0 & A & [X1 X2]) (a1 & B & [Y1 Y2]). destruct (s_keyf0 _ _ _ _ _ _ _ _ _ A B) as (-> & -> & -> & ->). repeat (split; [reflexivity|]). destruct (ndec k' k) as [E|N]; [|rewrite X2, Y2 by exact N; reflexivity]. specialize (X1 E). specialize (Y1 E). destruct a, a'; try reflexivity; exfalso; [assert (T : false = true) by (apply Y1, X1; reflexivity)|assert (T : false = true) by (apply X1, Y1; reflexivity)]; discriminate T.
      * intros k1 t x a k2 t' x' a' (a0 & A & _) (a1 & B & _) E. eauto.
      * intros k' t x d a (d0 & A & _). eauto.
      * intros n k' x d A. destruct (s_certkey0 _ _ _ _ A) as (a1 & a2 & a3 & a4 & X). destruct (ndec k' k) as [E|N]; [exists a1, a2, a3, b, a4|exists a1, a2, a3, a4, a4]; (split; [exact X|]); split; try tauto; intros; contradiction.
Qed.
