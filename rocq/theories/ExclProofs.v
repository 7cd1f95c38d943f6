(** * Proofs: the entries as a sorted list *)
From Verif Require Import Base BaseLemmas NameModel NameSpec NameProofs WireModel MatchSpec MatchProofs ExclModel ExclSpec.
From Coq Require Import Sorted.

Lemma lt_irr : forall a, ~ lt_k a a. Proof. intros a. apply key_lt_irr. Qed.
Lemma lt_tra : forall a b c, lt_k a b -> lt_k b c -> lt_k a c. Proof. intros a b c. apply key_lt_tra. Qed.
Lemma le_lt : forall a b c, le_k a b -> lt_k b c -> lt_k a c.
Proof. intros a b c [H|H] K; [eapply lt_tra; eassumption|unfold lt_k in *; rewrite H; exact K]. Qed.
Lemma lt_le : forall a b c, lt_k a b -> le_k b c -> lt_k a c.
Proof. intros a b c K [H|H]; [eapply lt_tra; eassumption|unfold lt_k in *; rewrite <- H; exact K]. Qed.
Lemma le_tra : forall a b c, le_k a b -> le_k b c -> le_k a c.
Proof. intros a b c [H|H] K; [left; eapply lt_le; eassumption|]. destruct K as [K|K]; [left; unfold lt_k in *; rewrite H; exact K|right; congruence]. Qed.
Lemma le_refl : forall a, le_k a a. Proof. intros a. right. reflexivity. Qed.
Lemma le_or_lt : forall a b, le_k a b \/ lt_k b a.
Proof. intros a b. unfold le_k, lt_k. destruct (c_compare_cases a b) as [[_ H]|[[_ H]|[_ H]]]; auto. Qed.
Lemma lt_not_le : forall a b, lt_k a b -> ~ le_k b a.
Proof. intros a b H K. exact (lt_irr a (lt_le a b a H K)). Qed.
Lemma cmp_le : forall a b, (c_compare a b <=? 0) = true <-> le_k a b.
Proof.
  intros a b. destruct (c_compare_cases a b) as [[E H]|[[E H]|[E H]]]; rewrite E; unfold le_k, lt_k; (split; [intros K|intros K]); auto; try discriminate.
  exfalso. exact (lt_not_le b a H K).
Qed.
Lemma cmp_le_f : forall a b, (c_compare a b <=? 0) = false <-> lt_k b a.
Proof.
  intros a b. destruct (c_compare a b <=? 0) eqn:E; (split; [try discriminate|]).
  - intros H. apply cmp_le in E. elim (lt_not_le _ _ H E).
  - intros _. destruct (le_or_lt a b) as [H|H]; [apply cmp_le in H; congruence|exact H].
  - reflexivity.
Qed.

(** The last entry that is not after [c] *)
Definition floor (l : list entry) (c : comp) : option entry := fold_left (fun acc e => if c_compare (fst e) c <=? 0 then Some e else acc) l None.
Definition cov (l : list entry) (c : comp) : Prop := match floor l c with Some (x, a) => c_key x = c_key c \/ a = true | None => False end.
Lemma floor_acc : forall l c acc, fold_left (fun acc e => if c_compare (fst e) c <=? 0 then Some e else acc) l acc = match floor l c with Some e => Some e | None => acc end.
Proof.
  unfold floor. induction l as [|e l IH]; intros c acc; [reflexivity|]. cbn [fold_left]. rewrite (IH c (if _ : bool then _ else acc)). rewrite (IH c (if _ : bool then _ else None)).
  destruct (fold_left _ l None); [reflexivity|]. destruct (_ <=? _); reflexivity.
Qed.
Lemma floor_app : forall l1 l2 c, floor (l1 ++ l2) c = match floor l2 c with Some e => Some e | None => floor l1 c end.
Proof. intros. unfold floor at 1. rewrite fold_left_app. apply floor_acc. Qed.
Definition all_gt (l : list entry) (c : comp) : Prop := Forall (fun e => lt_k c (fst e)) l.
Definition all_le (l : list entry) (c : comp) : Prop := Forall (fun e => le_k (fst e) c) l.
Lemma floor_gt : forall l c, all_gt l c -> floor l c = None.
Proof. intros l c H. unfold floor. induction H as [|e l He _ IH]; [reflexivity|]. cbn [fold_left]. apply cmp_le_f in He. rewrite He. exact IH. Qed.
Lemma floor_one : forall x a c, floor [(x, a)] c = if c_compare x c <=? 0 then Some (x, a) else None.
Proof. reflexivity. Qed.
Lemma cov_gt : forall l1 l2 c, all_gt l2 c -> (cov (l1 ++ l2) c <-> cov l1 c).
Proof. intros l1 l2 c H. unfold cov. rewrite floor_app, (floor_gt l2 c H). tauto. Qed.
Lemma cov_last : forall l1 x a l2 c, all_gt l2 c -> le_k x c -> (cov (l1 ++ (x, a) :: l2) c <-> c_key x = c_key c \/ a = true).
Proof.
  intros l1 x a l2 c H L. change ((x, a) :: l2) with ([(x, a)] ++ l2). rewrite app_assoc. rewrite cov_gt by exact H. unfold cov. rewrite floor_app, floor_one. apply cmp_le in L. rewrite L. tauto.
Qed.
Lemma cov_skip : forall l1 x a c, lt_k c x -> (cov (l1 ++ [(x, a)]) c <-> cov l1 c).
Proof. intros. apply cov_gt. constructor; [assumption|constructor]. Qed.

Definition esorted (l : list entry) : Prop := StronglySorted lt_k (map fst l).
Definition eregular (l : list entry) : Prop := Forall regular (map fst l).
Lemma sorted_app : forall l1 l2, StronglySorted lt_k (l1 ++ l2) <-> StronglySorted lt_k l1 /\ StronglySorted lt_k l2 /\ (forall a b, In a l1 -> In b l2 -> lt_k a b).
Proof.
  induction l1 as [|x l1 IH]; intros l2; cbn [app].
  - split; [intros H; split; [constructor|]; split; [exact H|intros a b []]|tauto].
  - split.
    + intros H. inversion H as [|? ? H1 H2]; subst. apply IH in H1. destruct H1 as (A & B & C). rewrite Forall_app in H2. destruct H2 as [H2 H3]. split; [constructor; assumption|]. split; [exact B|].
      intros a b [-> |I] J; [rewrite Forall_forall in H3; apply H3; exact J|apply C; assumption].
    + intros (A & B & C). inversion A as [|? ? A1 A2]; subst. constructor; [apply IH; split; [exact A1|]; split; [exact B|intros a b I J; apply C; [right; exact I|exact J]]|].
      rewrite Forall_app. split; [exact A2|]. apply Forall_forall. intros b J. apply C; [left; reflexivity|exact J].
Qed.

(** ** Reading and writing *)
Lemma set_last_snoc : forall l x a, set_last (l ++ [(x, a)]) = l ++ [(x, true)].
Proof. intros. unfold set_last. rewrite rev_app_distr. cbn [rev app]. rewrite rev_involutive. reflexivity. Qed.
Lemma from_any : forall acc x a es, entries_from (acc ++ [(x, a)]) (ExAny :: es) = entries_from (acc ++ [(x, true)]) es.
Proof. intros. cbn [entries_from]. rewrite set_last_snoc. destruct acc; reflexivity. Qed.
Lemma entries_hits : forall es acc x a c, StronglySorted lt_k (x :: listed es) ->
  (cov (entries_from (acc ++ [(x, a)]) es) c <-> (lt_k c x /\ cov acc c) \/ c_key x = c_key c \/ hits a (Some x) es c).
Proof.
  induction es as [|[|y] es IH]; intros acc x a c H.
  - cbn [entries_from hits low]. destruct (le_or_lt x c) as [L|L].
    + rewrite (cov_last acc x a [] c) by (auto; constructor). split.
      * intros [E|E]; [auto|]. destruct L as [L|L]; [|auto]. right. right. split; [exact E|exact L].
      * intros [[K _]|[E|[E _]]]; auto. elim (lt_not_le _ _ K L).
    + rewrite cov_skip by exact L. split; [auto|]. intros [[_ K]|[E|[_ K]]]; [exact K| |]; exfalso.
      * apply (lt_not_le _ _ L). right. exact E.
      * apply (lt_not_le _ _ L). left. exact K.
  - rewrite from_any. cbn [hits]. apply IH. exact H.
  - cbn [entries_from hits]. cbn [listed flat_map app] in H. inversion H as [|? ? H1 H2]; subst. inversion H2 as [|? ? H3 _]; subst. rewrite IH by exact H1. fold (lt_c c y). unfold low. change (lt_c c y) with (lt_k c y). change (lt_c x c) with (lt_k x c). destruct (le_or_lt x c) as [L|L].
    + assert (E : cov (acc ++ [(x, a)]) c <-> c_key x = c_key c \/ a = true) by (apply cov_last; [constructor|exact L]). rewrite E. split.
      * intros [[K [E'|E']]|[E'|E']]; auto. destruct L as [L|L]; [|auto]. right. right. left. auto.
      * intros [[K _]|[E'|[(E1 & E2 & E3)|[E'|E']]]]; auto; [elim (lt_not_le _ _ K L)|]. left. split; [|left; exact E']. unfold lt_k in *. rewrite <- E'. exact H3.
    + rewrite cov_skip by exact L. split.
      * intros [[K1 K2]|[E'|E']]; auto.
      * intros [[_ K]|[E'|[(_ & E' & _)|[E'|E']]]]; auto.
        -- left. split; [eapply lt_tra; eassumption|exact K].
        -- exfalso. apply (lt_not_le _ _ L). right. exact E'.
        -- exfalso. apply (lt_not_le _ _ L). left. exact E'.
Qed.
Lemma hits_empty : forall es c, le_k c_empty c -> Forall regular (listed es) -> (hits true None es c <-> c_key c_empty = c_key c \/ hits true (Some c_empty) es c).
Proof.
  induction es as [|[|y] es IH]; intros c L R; cbn [hits low].
  - split; [intros _; destruct L as [L|L]; [right; split; [reflexivity|exact L]|left; exact L]|auto].
  - apply IH; assumption.
  - cbn [listed flat_map app] in R. inversion R as [|? ? R1 R2]; subst. destruct R1 as (_ & R1 & _). change (lt_c c y) with (lt_k c y). change (lt_c c_empty c) with (lt_k c_empty c). split.
    + intros [(_ & _ & K)|[K|K]]; auto. destruct L as [L|L]; [right; left; auto|left; exact L].
    + intros [E|[(_ & K1 & K2)|[K|K]]]; auto. destruct R1 as [R1|R1]; [left; split; [reflexivity|]; split; [exact I|]; unfold lt_k in *; rewrite <- E; exact R1|right; left; congruence].
Qed.
Lemma empty_key : forall z, regular z -> c_key c_empty = c_key z -> z = c_empty.
Proof. intros z (_ & _ & H) E. apply H. unfold c_key in E. cbn in E. injection E as _ E. symmetry in E. destruct (c_value z); [reflexivity|]. cbn in E. discriminate E. Qed.
Lemma above_empty : forall l, Forall regular l -> StronglySorted lt_k l -> ~ In c_empty l -> StronglySorted lt_k (c_empty :: l).
Proof.
  intros l R S N. constructor; [exact S|]. apply Forall_forall. intros w Hw. rewrite Forall_forall in R. pose proof (R w Hw) as Rw. destruct Rw as (V & [Z|Z] & E); [exact Z|]. exfalso. apply N. rewrite <- (empty_key w (conj V (conj (or_intror Z) E)) Z). exact Hw.
Qed.
Lemma get_cov : forall es c, ordered es -> le_k c_empty c -> (cov (getExcludeEntries es) c <-> excluded es c).
Proof.
  intros es c (R & S & N) L. rewrite excluded_hits. unfold getExcludeEntries. destruct es as [|[|y] es]; cbn [entries_from hits].
  - split; [intros []|intros [E _]; discriminate E].
  - change (listed (ExAny :: es)) with (listed es) in *. rewrite hits_empty by assumption. pose proof (above_empty _ R S N) as Ds.
    rewrite (entries_hits es [] c_empty true c Ds). split; [intros [[_ []]|H]; exact H|auto].
  - cbn [listed flat_map app] in S. rewrite (entries_hits es [] y false c S). split; [intros [[_ []]|H]; auto|]. intros [(E & _)|H]; [discriminate E|auto].
Qed.
Lemma entries_fst : forall es acc, acc <> [] -> map fst (entries_from acc es) = map fst acc ++ listed es.
Proof.
  induction es as [|[|y] es IH]; intros acc N; cbn [entries_from]; [rewrite app_nil_r; reflexivity| |].
  - destruct acc as [|e acc]; [congruence|]. destruct (exists_last N) as (l & [x a] & El). rewrite El, set_last_snoc. rewrite IH by (destruct l; discriminate). rewrite !map_app. reflexivity.
  - rewrite IH by (destruct acc; discriminate). rewrite map_app, <- app_assoc. reflexivity.
Qed.
Lemma get_shape : forall es, ordered es -> esorted (getExcludeEntries es) /\ eregular (getExcludeEntries es).
Proof.
  intros es (R & S & N). unfold getExcludeEntries, esorted, eregular. destruct es as [|[|y] es]; cbn [entries_from].
  - split; constructor.
  - rewrite entries_fst by discriminate. change (listed (ExAny :: es)) with (listed es) in *. cbn [map fst app]. split; [apply above_empty; assumption|]. constructor; [|exact R].
    split; [split; [constructor|right; split; [right; right; reflexivity|reflexivity]]|]. split; [apply le_refl|reflexivity].
  - rewrite entries_fst by discriminate. cbn [map fst app]. change (listed (ExComp y :: es)) with (y :: listed es) in *. auto.
Qed.

Lemma from_put : forall l acc, acc <> [] -> entries_from acc (flat_map put_entry l) = acc ++ l.
Proof.
  induction l as [|[x a] l IH]; intros acc N; [rewrite app_nil_r; reflexivity|]. change (flat_map put_entry ((x, a) :: l)) with (ExComp x :: (if a then [ExAny] else []) ++ flat_map put_entry l). destruct a; cbn [app].
  - etransitivity; [exact (from_any acc x false (flat_map put_entry l))|]. rewrite IH by (destruct acc; discriminate). rewrite <- app_assoc. reflexivity.
  - cbn [entries_from]. rewrite IH by (destruct acc; discriminate). rewrite <- app_assoc. reflexivity.
Qed.
Lemma zlen0 : forall A (l : list A), zlen l = 0 -> l = [].
Proof. intros A [|x l] H; [reflexivity|]. rewrite zlen_cons in H. pose proof (zlen_nonneg _ l). lia. Qed.
Lemma get_set : forall l, eregular l -> getExcludeEntries (setExcludeEntries l) = l.
Proof.
  intros [|[x a] l] R; [reflexivity|]. cbn [setExcludeEntries fst snd]. unfold getExcludeEntries. inversion R as [|? ? (_ & _ & R1) _]; subst. destruct (zlen (c_value x) =? 0) eqn:E; [|destruct a].
  - apply Z.eqb_eq, zlen0 in E. rewrite (R1 E). destruct a; cbn [andb]; [exact (from_put l [(c_empty, true)] ltac:(discriminate))|exact (from_put l [(c_empty, false)] ltac:(discriminate))].
  - exact (from_put l [(x, true)] ltac:(discriminate)).
  - exact (from_put l [(x, false)] ltac:(discriminate)).
Qed.
Lemma listed_put : forall l, listed (flat_map put_entry l) = map fst l.
Proof. induction l as [|[x a] l IH]; [reflexivity|]. cbn [flat_map map fst]. unfold listed in *. rewrite flat_map_app, IH. destruct a; reflexivity. Qed.
Lemma set_ordered : forall l, esorted l -> eregular l -> ordered (setExcludeEntries l).
Proof.
  intros [|[x a] l] S R; [split; [constructor|split; constructor]|]. unfold esorted, eregular in S, R. cbn [map fst] in S, R. cbn [setExcludeEntries fst snd]. inversion R as [|? ? Rx R']; inversion S as [|? ? S1 S2]; subst.
  destruct ((zlen (c_value x) =? 0) && a) eqn:E.
  - apply andb_true_iff in E. destruct E as [E _]. apply Z.eqb_eq, zlen0 in E. apply (proj2 (proj2 Rx)) in E. subst x. unfold ordered. change (listed ([ExAny] ++ flat_map put_entry l)) with (listed (flat_map put_entry l)). rewrite listed_put. split; [exact R'|]. split; [exact S1|].
    cbn [app]. intros I. rewrite Forall_forall in S2. exact (lt_irr _ (S2 _ I)).
  - unfold ordered. change (put_entry (x, a) ++ flat_map put_entry l) with (flat_map put_entry ((x, a) :: l)). rewrite listed_put. cbn [map fst]. split; [exact R|]. split; [exact S|]. cbn. exact I.
Qed.
Lemma set_wf : forall l, ex_wf (setExcludeEntries l).
Proof.
  assert (W : forall l p q, flat_map put_entry l <> p ++ ExAny :: ExAny :: q).
  { induction l as [|[x a] l IH]; intros p q E; [destruct p; discriminate E|]. change (flat_map put_entry ((x, a) :: l)) with (ExComp x :: (if a then [ExAny] else []) ++ flat_map put_entry l) in E. destruct p as [|e p]; [discriminate E|]. cbn [app] in E. injection E as _ E. destruct a; cbn [app] in E.
    - destruct p as [|e' p]; [|cbn [app] in E; injection E as _ E; exact (IH p q E)]. cbn [app] in E. injection E as E. destruct l as [|[y b] l]; discriminate E.
    - exact (IH p q E). }
  intros [|[x a] l] p q E; [destruct p; discriminate E|]. cbn [setExcludeEntries] in E. destruct (_ && _).
  - destruct p as [|e p]; cbn [app] in E; [injection E as E; destruct l as [|[y b] l]; discriminate E|]. injection E as _ E. exact (W l p q E).
  - exact (W ((x, a) :: l) p q E).
Qed.
Lemma set_cov : forall l c, esorted l -> eregular l -> le_k c_empty c -> (excluded (setExcludeEntries l) c <-> cov l c).
Proof. intros l c S R L. rewrite <- (get_cov _ c (set_ordered l S R) L). rewrite get_set by exact R. tauto. Qed.

(** ** The index *)
Lemma find_le : forall l c i, 0 <= i -> esorted l -> exists l1 l2, l = l1 ++ l2 /\ all_le l1 c /\ all_gt l2 c /\ find_from i l c = match l1 with [] => -1 | _ :: _ => i + zlen l1 - 1 end.
Proof.
  induction l as [|[x a] l IH]; intros c i I S; [exists [], []; cbn; split; [reflexivity|]; split; [constructor|]; split; [constructor|reflexivity]|].
  unfold esorted in S. cbn [map fst] in S. inversion S as [|? ? S1 S2]; subst. destruct (IH c (i + 1) ltac:(lia) S1) as (l1 & l2 & -> & A & B & E). cbn [find_from fst]. rewrite E. destruct (le_or_lt x c) as [L|L].
  - exists ((x, a) :: l1), l2. split; [reflexivity|]. split; [constructor; assumption|]. split; [exact B|]. destruct l1 as [|e l1]; [apply cmp_le in L; rewrite L; change (zlen [(x, a)]) with 1; change (-1 <? 0) with true; cbv iota; lia|]. rewrite !zlen_cons. pose proof (zlen_nonneg _ l1). destruct (_ <? 0) eqn:Z; lia.
  - assert (l1 = []) as ->. { destruct l1 as [|e l1]; [reflexivity|]. exfalso. inversion A as [|? ? A1 _]; subst. cbn [map fst app] in S2. inversion S2 as [|? ? S3 _]; subst. apply (lt_not_le _ _ L). eapply le_tra; [left; exact S3|exact A1]. }
    exists [], ((x, a) :: l2). split; [reflexivity|]. split; [constructor|]. split; [constructor; [exact L|exact B]|]. apply cmp_le_f in L. rewrite L. reflexivity.
Qed.
Lemma tonat_len : forall A (l : list A), Z.to_nat (zlen l) = length l.
Proof. intros. unfold zlen. apply Nat2Z.id. Qed.
Lemma insert_at : forall l1 l2 e, l_insert (zlen l1) e (l1 ++ l2) = l1 ++ e :: l2.
Proof. intros. unfold l_insert. rewrite tonat_len, firstn_app, skipn_app, firstn_all, skipn_all, Nat.sub_diag. cbn. rewrite app_nil_r. reflexivity. Qed.
Lemma nth_at : forall l1 l2 (e : entry), nth_error (l1 ++ e :: l2) (Z.to_nat (zlen l1)) = Some e.
Proof. intros. rewrite tonat_len, nth_error_app2, Nat.sub_diag by lia. reflexivity. Qed.
Lemma any_at : forall l1 l2 x a, l_any (zlen l1) (l1 ++ (x, a) :: l2) = l1 ++ (x, true) :: l2.
Proof. intros. unfold l_any. rewrite tonat_len, firstn_app, skipn_app, firstn_all, skipn_all, Nat.sub_diag. cbn. rewrite app_nil_r. reflexivity. Qed.
Lemma del_at : forall l1 l2 l3, l_del (zlen l1) (zlen l1 + zlen l2) (l1 ++ l2 ++ l3) = l1 ++ l3.
Proof.
  intros. pose proof (zlen_nonneg _ l1). pose proof (zlen_nonneg _ l2). unfold l_del. rewrite Z.max_r by lia. rewrite tonat_len, firstn_app, firstn_all, Nat.sub_diag. cbn [firstn]. rewrite app_nil_r. f_equal.
  replace (Z.to_nat (zlen l1 + zlen l2)) with (length (l1 ++ l2)) by (rewrite app_length; unfold zlen; lia). rewrite app_assoc, skipn_app, skipn_all, Nat.sub_diag. reflexivity.
Qed.

Lemma all_gt_le : forall l a b, all_gt l b -> le_k a b -> all_gt l a.
Proof. intros l a b H L. unfold all_gt in *. eapply Forall_impl; [|exact H]. intros e K. eapply le_lt; eassumption. Qed.
Lemma all_le_le : forall l a b, all_le l a -> le_k a b -> all_le l b.
Proof. intros l a b H L. unfold all_le in *. eapply Forall_impl; [|exact H]. intros e K. exact (le_tra _ _ _ K L). Qed.

(** What putFrom does: the entry [x] followed by ANY, in place of [m] *)
Definition replaced (from : comp) (l1 : list entry) (x : comp) (m : list entry) : Prop :=
  m = [(x, true)] \/ (m = [(x, false)] /\ c_key x = c_key from) \/ (m = [] /\ x = from /\ forall c, lt_k from c -> ~ cov l1 c).
Lemma putFrom_ok : forall l from, esorted l -> eregular l -> regular from -> exists l1 x m l2,
  l = l1 ++ m ++ l2 /\ putFrom l from = (l1 ++ (x, true) :: l2, zlen l1) /\ le_k x from /\ all_gt l2 from /\ replaced from l1 x m /\
  esorted (l1 ++ (x, true) :: l2) /\ eregular (l1 ++ (x, true) :: l2).
Proof.
  intros l from S R Rf. destruct (find_le l from 0 ltac:(lia) S) as (k & l2 & -> & A & B & E). unfold putFrom, findEntryBeforeOrAt. rewrite E. clear E.
  destruct k as [|e0 k0] eqn:Ek.
  - cbn [Z.ltb]. change (-1 <? 0) with true. cbv iota. exists [], from, [], l2. cbn [app] in *. split; [reflexivity|]. split; [reflexivity|]. split; [apply le_refl|]. split; [exact B|]. split.
    + right. right. split; [reflexivity|]. split; [reflexivity|]. intros c _ [].
    + unfold esorted, eregular in *. cbn [map fst app]. split; [|constructor; assumption]. constructor; [exact S|]. unfold all_gt in B. clear -B. induction B; cbn [map]; constructor; assumption.
  - rewrite <- Ek in *. assert (N : k <> []) by (rewrite Ek; discriminate). clear Ek e0 k0. destruct (exists_last N) as (l1 & [x a] & ->). pose proof (zlen_nonneg _ l1). rewrite zlen_app. change (zlen [(x, a)]) with 1.
    replace (0 + (zlen l1 + 1) - 1) with (zlen l1) by lia. replace (zlen l1 <? 0) with false by lia. rewrite <- app_assoc. cbn [app]. rewrite nth_at.
    unfold all_le in A. rewrite Forall_app in A. destruct A as [A Ax]. inversion Ax as [|? ? Lx _]; subst. cbn [fst] in Lx. unfold esorted, eregular in *. rewrite <- app_assoc in *. cbn [app] in S, R.
    destruct a; cbn [negb].
    + exists l1, x, [(x, true)], l2. split; [reflexivity|]. split; [reflexivity|]. split; [exact Lx|]. split; [exact B|]. split; [left; reflexivity|]. split; [exact S|exact R].
    + assert (Rx : regular x) by (rewrite map_app, Forall_app in R; destruct R as [_ R]; inversion R; assumption). pose proof (c_equals_iff_key x from (proj1 Rx) (proj1 Rf)) as Q. destruct (c_equals x from).
      * rewrite any_at. exists l1, x, [(x, false)], l2. split; [reflexivity|]. split; [reflexivity|]. split; [exact Lx|]. split; [exact B|]. split; [right; left; split; [reflexivity|apply Q; reflexivity]|]. rewrite map_app in *. cbn [map fst] in *. split; [exact S|exact R].
      * assert (Lt : lt_k x from) by (destruct Lx as [Lx|Lx]; [exact Lx|apply Q in Lx; discriminate Lx]). change (l1 ++ (x, false) :: l2) with (l1 ++ [(x, false)] ++ l2). rewrite app_assoc. replace (zlen l1 + 1) with (zlen (l1 ++ [(x, false)])) by (rewrite zlen_app; reflexivity). rewrite insert_at.
        exists (l1 ++ [(x, false)]), from, [], l2. split; [reflexivity|]. split; [reflexivity|]. split; [apply le_refl|]. split; [exact B|]. split.
        -- right. right. split; [reflexivity|]. split; [reflexivity|]. intros c Hc. rewrite (cov_last l1 x false [] c) by (try constructor; eapply lt_tra; eassumption). intros [K|K]; [|discriminate K]. apply (lt_irr x). unfold lt_k in *. rewrite K at 2. eapply key_lt_tra; eassumption.
        -- rewrite map_app in *. cbn [map fst] in *. rewrite map_app. cbn [map fst]. rewrite Forall_app in *. destruct R as [R1 R2]. inversion R2 as [|? ? _ R3]; subst. split.
           ++ rewrite sorted_app in S. destruct S as (S1 & S2 & S3). inversion S2 as [|? ? S4 S5]; subst. rewrite sorted_app. split; [|split].
              ** apply sorted_app. split; [exact S1|]. split; [constructor; constructor|]. intros a b I [<- |[]]. apply S3; [exact I|left; reflexivity].
              ** constructor; [exact S4|]. unfold all_gt in B. clear -B. induction B; cbn [map]; constructor; assumption.
              ** intros a b I J. assert (La : lt_k a from). { apply in_app_or in I. destruct I as [I|[<- |[]]]; [|exact Lt]. eapply lt_tra; [apply S3; [exact I|left; reflexivity]|exact Lt]. }
                 destruct J as [<- |J]; [exact La|]. eapply lt_tra; [exact La|]. apply in_map_iff in J. destruct J as (e & <- & J). unfold all_gt in B. rewrite Forall_forall in B. exact (B e J).
           ++ split; [apply Forall_app; split; [exact R1|constructor; [exact Rx|constructor]]|constructor; assumption].
Qed.
