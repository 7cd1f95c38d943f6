(** * Every call keeps the rows and the relations alike, and what is held sound *)
From Verif Require Import Base BaseLemmas NameModel NameSpec NameProofs UriModel UriSpec BisModel BisSpec BisProofs.

Lemma flip_true : forall b : bool, b <> true -> b = false. Proof. destruct b; congruence. Qed.
(** ** Statements on relations *)
Lemma r_ids_add : forall l p i, ids_rep l p -> ids_rep (l ++ [irow i false]) (fun n d => p n d \/ (n = i /\ d = false)).
Proof.
  intros l p i H r. rewrite in_snoc, (H r). split.
  - intros [(n & d & A & B)|A]; [exists n, d; auto|exists i, false; auto].
  - intros (n & d & [A|[-> ->]] & B); [left; exists n, d; auto|right; exact B].
Qed.
Lemma r_ids_ext : forall l p q, ids_rep l p -> (forall n d, p n d <-> q n d) -> ids_rep l q.
Proof. intros l p q H E r. rewrite (H r). split; intros (n & d & A & B); exists n, d; (split; [apply E; exact A|exact B]). Qed.
Lemma r_keys_ext : forall l p q, keys_rep l p -> (forall k t x d a, p k t x d a <-> q k t x d a) -> keys_rep l q.
Proof. intros l p q H E r. rewrite (H r). split; intros (k & t & x & d & a & A & B); exists k, t, x, d, a; (split; [apply E; exact A|exact B]). Qed.
Lemma r_certs_ext : forall l p q, certs_rep l p -> (forall n k x d, p n k x d <-> q n k x d) -> certs_rep l q.
Proof. intros l p q H E r. rewrite (H r). split; intros (n & k & x & d & A & B); exists n, k, x, d; (split; [apply E; exact A|exact B]). Qed.
Lemma r_keys_add : forall l p k t x, keys_rep l p -> keys_rep (l ++ [krow k t x false false]) (fun k' t' x' d a => p k' t' x' d a \/ (k' = k /\ t' = t /\ x' = x /\ d = false /\ a = false)).
Proof.
  intros l p k t x H r. rewrite in_snoc, (H r). split.
  - intros [(k' & t' & x' & d & a & A & B)|A]; [exists k', t', x', d, a; auto|exists k, t, x, false, false; auto 8].
  - intros (k' & t' & x' & d & a & [A|(-> & -> & -> & -> & ->)] & B); [left; exists k', t', x', d, a; auto|right; exact B].
Qed.
Lemma r_certs_add : forall l p n k x, certs_rep l p -> certs_rep (l ++ [crow n k x false]) (fun n' k' x' d => p n' k' x' d \/ (n' = n /\ k' = k /\ x' = x /\ d = false)).
Proof.
  intros l p k t x H r. rewrite in_snoc, (H r). split.
  - intros [(k' & t' & x' & d & A & B)|A]; [exists k', t', x', d; auto|exists k, t, x, false; auto 8].
  - intros (k' & t' & x' & d & [A|(-> & -> & -> & ->)] & B); [left; exists k', t', x', d; auto|right; exact B].
Qed.
Lemma r_ids_del : forall l p f (Q : name -> Prop), ids_rep l p -> (forall n d, p n d -> (f (irow n d) = true <-> Q n)) -> ids_rep (filter (fun r => negb (f r)) l) (fun n d => ~ Q n /\ p n d).
Proof.
  intros l p f Q H E r. rewrite filter_In, (H r). split.
  - intros [(n & d & A & ->) B]. exists n, d. split; [|reflexivity]. split; [|exact A]. apply (not_iff _ _ (E n d A)). exact B.
  - intros (n & d & [A B] & ->). split; [exists n, d; auto|]. apply (not_iff _ _ (E n d B)). exact A.
Qed.
Lemma r_keys_del : forall l p f (Q : name -> Prop), keys_rep l p -> (forall k t x d a, p k t x d a -> (f (krow k t x d a) = true <-> Q k)) -> keys_rep (filter (fun r => negb (f r)) l) (fun k t x d a => ~ Q k /\ p k t x d a).
Proof.
  intros l p f Q H E r. rewrite filter_In, (H r). split.
  - intros [(k & t & x & d & a & A & ->) B]. exists k, t, x, d, a. split; [|reflexivity]. split; [|exact A]. apply (not_iff _ _ (E _ _ _ _ _ A)). exact B.
  - intros (k & t & x & d & a & [A B] & ->). split; [exists k, t, x, d, a; auto|]. apply (not_iff _ _ (E _ _ _ _ _ B)). exact A.
Qed.
Lemma r_certs_del : forall l p f (Q : name -> name -> Prop), certs_rep l p -> (forall n k x d, p n k x d -> (f (crow n k x d) = true <-> Q n k)) -> certs_rep (filter (fun r => negb (f r)) l) (fun n k x d => ~ Q n k /\ p n k x d).
Proof.
  intros l p f Q H E r. rewrite filter_In, (H r). split.
  - intros [(n & k & x & d & A & ->) B]. exists n, k, x, d. split; [|reflexivity]. split; [|exact A]. apply (not_iff _ _ (E _ _ _ _ A)). exact B.
  - intros (n & k & x & d & [A B] & ->). split; [exists n, k, x, d; auto|]. apply (not_iff _ _ (E _ _ _ _ B)). exact A.
Qed.
(** the two UPDATEs of setDefault...: reset the group, then set the chosen row *)
Definition two (g c d : bool) : bool := if c then true else if d && g then false else d.
Lemma two_elected : forall g c d d' (G C : Prop), (g = true <-> G) -> (c = true <-> (G /\ C)) -> (d' = two g c d <-> elected G C d d').
Proof.
  intros g c d d' G C Hg Hc. unfold two, elected. destruct g, c.
  - assert (G /\ C) as [X Y] by (apply Hc; reflexivity). split; [intros ->; tauto|intros [A _]; apply A; assumption].
  - assert (X : G) by (apply Hg; reflexivity). assert (NC : ~ C) by (intros Y; assert (E : false = true) by (apply Hc; auto); discriminate E). rewrite andb_true_r.
    split; [intros ->; (split; [|tauto]); intros _; (split; [destruct d; discriminate|tauto])|]. intros [A _]. specialize (A X). destruct d; (destruct d'; [exfalso; tauto|reflexivity]).
  - assert (X : G /\ C) by (apply Hc; reflexivity). assert (E : false = true) by (apply Hg, X). discriminate E.
  - assert (X : ~ G) by (intros Y; apply Hg in Y; discriminate Y). rewrite andb_false_r. split; [intros ->; destruct d; tauto|intros [_ A]; rewrite (A X); destruct d; reflexivity].
Qed.
Lemma r_ids_set : forall l p f (C : name -> Prop), ids_rep l p -> (forall n d d', f (irow n d) = f (irow n d')) -> (forall n d, p n d -> (f (irow n d) = true <-> C n)) ->
  ids_rep (update f (i_set true) (update i_default (i_set false) l)) (fun n d => exists d0, p n d0 /\ elected True (C n) d0 d).
Proof.
  intros l p f C H F E.
  assert (K : forall n d0 d, p n d0 -> (d = two true (f (irow n d0)) d0 <-> elected True (C n) d0 d)) by (intros n d0 d A; apply two_elected; [tauto|rewrite (E n d0 A); tauto]).
  assert (V : forall n d0, (let r0 := if i_default (irow n d0) then i_set false (irow n d0) else irow n d0 in if f r0 then i_set true r0 else r0) = irow n (two true (f (irow n d0)) d0)).
  { intros n d0. unfold two. rewrite andb_true_r. cbv zeta. change (i_default (irow n d0)) with d0. destruct d0.
    - change (i_set false (irow n true)) with (irow n false). rewrite (F n false true). destruct (f (irow n true)); reflexivity.
    - destruct (f (irow n false)); reflexivity. }
  intros r. rewrite in_update. split.
  - intros (r1 & A & ->). apply in_update in A. destruct A as (r0 & A & ->). apply H in A. destruct A as (n & d0 & A & ->). cbv zeta in V. rewrite V. eexists n, _. split; [|reflexivity]. exists d0. split; [exact A|]. apply (K n d0 _ A). reflexivity.
  - intros (n & d & (d0 & A & B) & ->). apply (K n d0 d A) in B. subst d. cbv zeta in V. rewrite <- V. eexists. split; [|reflexivity]. apply in_update. exists (irow n d0). split; [apply H; exists n, d0; auto|reflexivity].
Qed.
Lemma r_keys_set : forall l p f g (C G : name -> Prop), keys_rep l p -> (forall k t x d d' a, f (krow k t x d a) = f (krow k t x d' a)) ->
  (forall k t x d a, p k t x d a -> (g (krow k t x d a) = true <-> G k)) -> (forall k t x d a, p k t x d a -> (f (krow k t x d a) = true <-> G k /\ C k)) ->
  keys_rep (update f (k_set true) (update (fun r => k_default r && g r) (k_set false) l)) (fun k t x d a => exists d0, p k t x d0 a /\ elected (G k) (C k) d0 d).
Proof.
  intros l p f g C G H F E1 E2.
  assert (K : forall k t x d0 a d, p k t x d0 a -> (d = two (g (krow k t x d0 a)) (f (krow k t x d0 a)) d0 <-> elected (G k) (C k) d0 d)) by (intros k t x d0 a d A; apply two_elected; [apply E1; exact A|apply E2; exact A]).
  assert (V : forall k t x d0 a, (let r0 := if k_default (krow k t x d0 a) && g (krow k t x d0 a) then k_set false (krow k t x d0 a) else krow k t x d0 a in if f r0 then k_set true r0 else r0) = krow k t x (two (g (krow k t x d0 a)) (f (krow k t x d0 a)) d0) a).
  { intros k t x d0 a. unfold two. cbv zeta. change (k_default (krow k t x d0 a)) with d0. destruct d0; cbn [andb].
    - destruct (g (krow k t x true a)).
      + change (k_set false (krow k t x true a)) with (krow k t x false a). rewrite (F k t x false true a). destruct (f (krow k t x true a)); reflexivity.
      + destruct (f (krow k t x true a)); reflexivity.
    - destruct (f (krow k t x false a)); reflexivity. }
  intros r. rewrite in_update. split.
  - intros (r1 & A & ->). apply in_update in A. destruct A as (r0 & A & ->). apply H in A. destruct A as (k & t & x & d0 & a & A & ->). cbv zeta in V. rewrite V. eexists k, t, x, _, a. split; [|reflexivity]. exists d0. split; [exact A|]. apply (K _ _ _ _ _ _ A). reflexivity.
  - intros (k & t & x & d & a & (d0 & A & B) & ->). apply (K _ _ _ _ _ _ A) in B. subst d. cbv zeta in V. rewrite <- V. eexists. split; [|reflexivity]. apply in_update. exists (krow k t x d0 a). split; [apply H; exists k, t, x, d0, a; auto|reflexivity].
Qed.
Lemma r_certs_set : forall l p f g (C G : name -> name -> Prop), certs_rep l p -> (forall n k x d d', f (crow n k x d) = f (crow n k x d')) ->
  (forall n k x d, p n k x d -> (g (crow n k x d) = true <-> G n k)) -> (forall n k x d, p n k x d -> (f (crow n k x d) = true <-> G n k /\ C n k)) ->
  certs_rep (update f (c_set true) (update (fun r => c_default r && g r) (c_set false) l)) (fun n k x d => exists d0, p n k x d0 /\ elected (G n k) (C n k) d0 d).
Proof.
  intros l p f g C G H F E1 E2.
  assert (K : forall n k x d0 d, p n k x d0 -> (d = two (g (crow n k x d0)) (f (crow n k x d0)) d0 <-> elected (G n k) (C n k) d0 d)) by (intros n k x d0 d A; apply two_elected; [apply E1; exact A|apply E2; exact A]).
  assert (V : forall n k x d0, (let r0 := if c_default (crow n k x d0) && g (crow n k x d0) then c_set false (crow n k x d0) else crow n k x d0 in if f r0 then c_set true r0 else r0) = crow n k x (two (g (crow n k x d0)) (f (crow n k x d0)) d0)).
  { intros n k x d0. unfold two. cbv zeta. change (c_default (crow n k x d0)) with d0. destruct d0; cbn [andb].
    - destruct (g (crow n k x true)).
      + change (c_set false (crow n k x true)) with (crow n k x false). rewrite (F n k x false true). destruct (f (crow n k x true)); reflexivity.
      + destruct (f (crow n k x true)); reflexivity.
    - destruct (f (crow n k x false)); reflexivity. }
  intros r. rewrite in_update. split.
  - intros (r1 & A & ->). apply in_update in A. destruct A as (r0 & A & ->). apply H in A. destruct A as (n & k & x & d0 & A & ->). cbv zeta in V. rewrite V. eexists n, k, x, _. split; [|reflexivity]. exists d0. split; [exact A|]. apply (K _ _ _ _ _ A). reflexivity.
  - intros (n & k & x & d & (d0 & A & B) & ->). apply (K _ _ _ _ _ A) in B. subst d. cbv zeta in V. rewrite <- V. eexists. split; [|reflexivity]. apply in_update. exists (crow n k x d0). split; [apply H; exists n, k, x, d0; auto|reflexivity].
Qed.
Lemma r_keys_act : forall l p f b (C : name -> Prop), keys_rep l p -> (forall k t x d a, p k t x d a -> (f (krow k t x d a) = true <-> C k)) ->
  keys_rep (update f (k_setActive b) l) (fun k t x d a => exists a0, p k t x d a0 /\ elected (C k) (b = true) a0 a).
Proof.
  intros l p f b C H E.
  assert (K : forall k t x d a0 a, p k t x d a0 -> (a = (if f (krow k t x d a0) then b else a0) <-> elected (C k) (b = true) a0 a)).
  { intros k t x d a0 a A. specialize (E k t x d a0 A). unfold elected. destruct (f (krow k t x d a0)).
    - assert (X : C k) by (apply E; reflexivity). split; [intros ->; tauto|]. intros [Y _]. specialize (Y X). destruct a, b; try reflexivity; [symmetry; apply Y; reflexivity|apply Y; reflexivity].
    - assert (X : ~ C k) by (intros Y; apply E in Y; discriminate Y). split; [intros ->; tauto|intros [_ Y]; auto]. }
  intros r. rewrite in_update. split.
  - intros (r0 & A & ->). apply H in A. destruct A as (k & t & x & d & a0 & A & ->). exists k, t, x, d, (if f (krow k t x d a0) then b else a0). split; [exists a0; split; [exact A|apply (K _ _ _ _ _ _ A); reflexivity]|]. destruct (f (krow k t x d a0)); reflexivity.
  - intros (k & t & x & d & a & (a0 & A & B) & ->). apply (K _ _ _ _ _ _ A) in B. subst a. exists (krow k t x d a0). split; [apply H; exists k, t, x, d, a0; auto|]. destruct (f (krow k t x d a0)); reflexivity.
Qed.
