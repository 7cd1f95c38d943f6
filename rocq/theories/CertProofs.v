(** * Sorted key lists, bisection, and the loops of the containers *)
From Verif Require Import Base BaseLemmas NameModel NameSpec NameProofs DictModel DictProofs PsyncProofs CertModel CertSpec.
From Coq Require Import Sorting.Sorted.
Local Open Scope res_scope.

Definition nval (n : name) : Prop := Forall c_valid n.
Lemma Heqn : forall a b, nval a -> nval b -> (n_equals a b = true <-> a = b).
Proof. exact valid_equals. Qed.
Lemma n_ltb_iff : forall a b, n_ltb a b = true <-> canon_lt a b.
Proof.
  intros a b. unfold n_ltb, canon_lt. rewrite n_compare_cmp. pose proof (n_cmp_cases a b) as [[E L]|[[E L]|[E L]]]; rewrite ?E.
  - split; auto.
  - split; [discriminate|]. rewrite L. intros H. elim (name_lt_irr _ H).
  - split; [discriminate|]. intros H. elim (name_lt_irr _ (name_lt_tra _ _ _ H L)).
Qed.
Lemma canon_tra : forall a b c, canon_lt a b -> canon_lt b c -> canon_lt a c.
Proof. intros a b c. apply name_lt_tra. Qed.
Lemma canon_irr : forall a, ~ canon_lt a a.
Proof. intros a. apply name_lt_irr. Qed.
Lemma canon_tri : forall a b, nval a -> nval b -> canon_lt a b \/ a = b \/ canon_lt b a.
Proof.
  intros a b Ha Hb. unfold canon_lt. destruct (n_cmp_cases a b) as [[_ L]|[[_ L]|[_ L]]]; [left; exact L|right; left|right; right; exact L].
  apply n_valid_key_inj; assumption.
Qed.

(** ** Prefixes form an interval *)
Lemma app_split : forall (A : Type) (a b c d : list A), a ++ b = c ++ d -> (exists m, c = a ++ m /\ b = m ++ d) \/ (exists m, m <> [] /\ a = c ++ m /\ d = m ++ b).
Proof.
  intros A. induction a as [|x a IH]; intros b c d E.
  - left. exists c. split; [reflexivity|exact E].
  - destruct c as [|y c]; cbn [app] in E.
    + right. exists (x :: a). split; [discriminate|]. split; [reflexivity|]. rewrite <- E. reflexivity.
    + injection E as <- E. destruct (IH _ _ _ E) as [(m & -> & ->)|(m & N & -> & ->)]; [left|right]; exists m; auto.
Qed.
Lemma prefix_convex_key : forall p k k', prefix p k -> ~ name_lt k' p -> name_lt k' k -> prefix p k'.
Proof.
  intros p k k' [s ->] N [(x & r & E)|(q & x & y & r & s' & -> & E & L)].
  - apply app_split in E. destruct E as [(m & -> & _)|(m & Nm & -> & E)]; [exists m; reflexivity|].
    exfalso. apply N. left. destruct m as [|z m]; [congruence|]. exists z, m. reflexivity.
  - apply app_split in E. destruct E as [(m & -> & _)|(m & Nm & -> & E)]; [exists (m ++ x :: r); rewrite <- app_assoc; reflexivity|].
    destruct m as [|z m]; [congruence|]. cbn [app] in E. injection E as <- _. exfalso. apply N. right. exists q, x, y, r, m. auto.
Qed.
Lemma prefix_key : forall p k, nval p -> nval k -> (prefix (n_key p) (n_key k) <-> under_name p k).
Proof.
  intros p k Hp Hk. unfold under_name. split.
  - intros [s E]. exists (skipn (length p) k). rewrite <- (firstn_skipn (length p) k) at 1. f_equal.
    apply n_valid_key_inj; [rewrite <- (firstn_skipn (length p) k) in Hk; apply Forall_app in Hk; apply Hk|exact Hp|].
    unfold n_key in *. rewrite <- firstn_map, E. rewrite <- (map_length c_key p). rewrite firstn_app, Nat.sub_diag, firstn_all. cbn [firstn]. apply app_nil_r.
  - intros [s ->]. exists (n_key s). unfold n_key. apply map_app.
Qed.
Lemma prefix_convex : forall p k k', nval p -> nval k -> nval k' -> under_name p k -> ~ canon_lt k' p -> canon_lt k' k \/ k' = k -> under_name p k'.
Proof.
  intros p k k' Hp Hk Hk' U N [L| ->]; [|exact U]. apply prefix_key; [assumption|assumption|]. apply (prefix_convex_key (n_key p) (n_key k)); [apply prefix_key; assumption|exact N|exact L].
Qed.
Lemma under_name_values : forall p k, under_name p k -> under_values p k.
Proof. intros p k [s ->]. exists (map c_value s). apply map_app. Qed.
Lemma under_not_lt : forall p k, under_name p k -> ~ canon_lt k p.
Proof.
  intros p k [s ->] L. unfold canon_lt, n_key in L. rewrite map_app in L. destruct s as [|x s]; [cbn [map] in L; rewrite app_nil_r in L; exact (name_lt_irr _ L)|].
  apply (name_lt_irr (map c_key p)). eapply name_lt_tra; [|exact L]. left. exists (c_key x), (map c_key s). reflexivity.
Qed.
Lemma isPrefixOf_iff : forall p k, n_isPrefixOf p k = true <-> under_values p k.
Proof. intros p k. unfold n_isPrefixOf. apply n_match_iff. Qed.

(** ** Sorted lists and bisection *)
Notation sorted := (StronglySorted canon_lt).
Lemma sorted_app : forall a b, sorted (a ++ b) <-> sorted a /\ sorted b /\ (forall x y, In x a -> In y b -> canon_lt x y).
Proof.
  induction a as [|z a IH]; intros b; cbn [app].
  - split; [intros H; split; [constructor|split; [exact H|intros x y []]]|tauto].
  - split.
    + intros H. inversion H as [|? ? H1 H2]; subst. apply IH in H1. destruct H1 as (A & B & X). rewrite Forall_app in H2. destruct H2 as [F1 F2].
      split; [constructor; assumption|]. split; [exact B|]. intros x y [<-|I] J; [rewrite Forall_forall in F2; auto|auto].
    + intros (A & B & X). inversion A as [|? ? A1 A2]; subst. constructor; [apply IH; split; [exact A1|split; [exact B|intros x y I J; apply X; [right; exact I|exact J]]]|].
      apply Forall_app. split; [exact A2|]. apply Forall_forall. intros y J. apply X; [left; reflexivity|exact J].
Qed.
Lemma sorted_nodup : forall a, sorted a -> NoDup a.
Proof.
  induction a as [|x a IH]; intros H; [constructor|]. inversion H as [|? ? H1 H2]; subst. constructor; [|auto]. intros I. rewrite Forall_forall in H2. exact (canon_irr _ (H2 _ I)).
Qed.
Lemma nth_split : forall (A : Type) (l : list A) i x, nth_error l i = Some x -> l = firstn i l ++ x :: skipn (S i) l.
Proof. induction l as [|y l IH]; intros [|i] x H; cbn [nth_error firstn skipn app] in *; try discriminate; [congruence|]. f_equal. apply IH. exact H. Qed.
Lemma bisect_left_spec : forall a x, sorted a ->
  (forall y, In y (firstn (bisect_left a x) a) -> canon_lt y x) /\ (forall y, In y (skipn (bisect_left a x) a) -> ~ canon_lt y x).
Proof.
  intros a x Sa. unfold bisect_left.
  assert (G : forall fuel lo hi, (hi - lo < fuel)%nat -> (lo <= hi)%nat -> (hi <= length a)%nat ->
    (forall y, In y (firstn lo a) -> canon_lt y x) -> (forall y, In y (skipn hi a) -> ~ canon_lt y x) ->
    let i := bisect_left_loop fuel a x lo hi in (forall y, In y (firstn i a) -> canon_lt y x) /\ (forall y, In y (skipn i a) -> ~ canon_lt y x)).
  { induction fuel as [|fuel IH]; intros lo hi F L H A B; [lia|]. cbn [bisect_left_loop]. destruct (lo <? hi)%nat eqn:E.
    - apply Nat.ltb_lt in E. cbv zeta. assert (M1 : (lo <= (lo + hi) / 2)%nat) by (apply Nat.div_le_lower_bound; lia). assert (M2 : ((lo + hi) / 2 < hi)%nat) by (apply Nat.div_lt_upper_bound; lia).
      set (mid := ((lo + hi) / 2)%nat) in *. destruct (nth_error a mid) as [y|] eqn:Ey; [|apply nth_error_None in Ey; lia].
      pose proof (nth_split _ _ _ _ Ey) as Sp. pose proof Sa as Sa'. rewrite Sp in Sa'. apply sorted_app in Sa'. destruct Sa' as (S1 & S2 & S12). inversion S2 as [|? ? S3 S4]; subst.
      destruct (n_ltb y x) eqn:Ly.
      + apply n_ltb_iff in Ly. apply IH; [lia|lia|lia| |exact B]. intros z Hz.
        assert (Hz' : In z (firstn mid a ++ [y])).
        { replace (firstn mid a ++ [y]) with (firstn (S mid) a); [exact Hz|]. rewrite Sp at 1. rewrite firstn_app, firstn_firstn. rewrite firstn_length. replace (Nat.min mid (length a)) with mid by lia.
          replace (Nat.min (S mid) mid) with mid by lia. replace (S mid - mid)%nat with 1%nat by lia. reflexivity. }
        apply in_app_or in Hz'. destruct Hz' as [Hz'|[<-|[]]]; [|exact Ly]. eapply canon_tra; [apply S12; [exact Hz'|left; reflexivity]|exact Ly].
      + assert (Ly' : ~ canon_lt y x) by (intros X; apply n_ltb_iff in X; congruence). apply IH; [lia|lia|lia|exact A|]. intros z Hz.
        assert (Hz' : In z (y :: skipn (S mid) a)).
        { replace (y :: skipn (S mid) a) with (skipn mid a); [exact Hz|]. rewrite Sp at 1. rewrite skipn_app, firstn_length. replace (Nat.min mid (length a)) with mid by lia.
          rewrite Nat.sub_diag. rewrite skipn_all2 by (rewrite firstn_length; lia). reflexivity. }
        destruct Hz' as [<-|Hz']; [exact Ly'|]. intros X. apply Ly'. rewrite Forall_forall in S4. eapply canon_tra; [apply S4; exact Hz'|exact X].
    - apply Nat.ltb_ge in E. assert (lo = hi) by lia. subst hi. split; assumption. }
  apply G; [lia|lia|lia|intros y []|]. rewrite skipn_all. intros y [].
Qed.
Lemma bisect_right_spec : forall a x, sorted a ->
  (forall y, In y (firstn (bisect_right a x) a) -> ~ canon_lt x y) /\ (forall y, In y (skipn (bisect_right a x) a) -> canon_lt x y).
Proof.
  intros a x Sa. unfold bisect_right.
  assert (G : forall fuel lo hi, (hi - lo < fuel)%nat -> (lo <= hi)%nat -> (hi <= length a)%nat ->
    (forall y, In y (firstn lo a) -> ~ canon_lt x y) -> (forall y, In y (skipn hi a) -> canon_lt x y) ->
    let i := bisect_right_loop fuel a x lo hi in (forall y, In y (firstn i a) -> ~ canon_lt x y) /\ (forall y, In y (skipn i a) -> canon_lt x y)).
  { induction fuel as [|fuel IH]; intros lo hi F L H A B; [lia|]. cbn [bisect_right_loop]. destruct (lo <? hi)%nat eqn:E.
    - apply Nat.ltb_lt in E. cbv zeta. assert (M1 : (lo <= (lo + hi) / 2)%nat) by (apply Nat.div_le_lower_bound; lia). assert (M2 : ((lo + hi) / 2 < hi)%nat) by (apply Nat.div_lt_upper_bound; lia).
      set (mid := ((lo + hi) / 2)%nat) in *. destruct (nth_error a mid) as [y|] eqn:Ey; [|apply nth_error_None in Ey; lia].
      pose proof (nth_split _ _ _ _ Ey) as Sp. pose proof Sa as Sa'. rewrite Sp in Sa'. apply sorted_app in Sa'. destruct Sa' as (S1 & S2 & S12). inversion S2 as [|? ? S3 S4]; subst.
      destruct (n_ltb x y) eqn:Ly.
      + apply n_ltb_iff in Ly. apply IH; [lia|lia|lia|exact A|]. intros z Hz.
        assert (Hz' : In z (y :: skipn (S mid) a)).
        { replace (y :: skipn (S mid) a) with (skipn mid a); [exact Hz|]. rewrite Sp at 1. rewrite skipn_app, firstn_length. replace (Nat.min mid (length a)) with mid by lia.
          rewrite Nat.sub_diag. rewrite skipn_all2 by (rewrite firstn_length; lia). reflexivity. }
        destruct Hz' as [<-|Hz']; [exact Ly|]. rewrite Forall_forall in S4. eapply canon_tra; [exact Ly|apply S4; exact Hz'].
      + assert (Ly' : ~ canon_lt x y) by (intros X; apply n_ltb_iff in X; congruence). apply IH; [lia|lia|lia| |exact B]. intros z Hz.
        assert (Hz' : In z (firstn mid a ++ [y])).
        { replace (firstn mid a ++ [y]) with (firstn (S mid) a); [exact Hz|]. rewrite Sp at 1. rewrite firstn_app, firstn_firstn. rewrite firstn_length. replace (Nat.min mid (length a)) with mid by lia.
          replace (Nat.min (S mid) mid) with mid by lia. replace (S mid - mid)%nat with 1%nat by lia. reflexivity. }
        apply in_app_or in Hz'. destruct Hz' as [Hz'|[<-|[]]]; [|exact Ly']. intros X. apply Ly'. eapply canon_tra; [exact X|apply S12; [exact Hz'|left; reflexivity]].
    - apply Nat.ltb_ge in E. assert (lo = hi) by lia. subst hi. split; assumption. }
  apply G; [lia|lia|lia|intros y []|]. rewrite skipn_all. intros y [].
Qed.
Lemma insort_in : forall a x y, In y (insort a x) <-> y = x \/ In y a.
Proof.
  intros a x y. unfold insort. cbv zeta. rewrite in_app_iff. cbn [In]. pose proof (in_app_iff (firstn (bisect_right a x) a) (skipn (bisect_right a x) a) y) as Q. rewrite firstn_skipn in Q. rewrite Q. intuition congruence.
Qed.
Lemma insort_sorted : forall a x, sorted a -> nval x -> Forall nval a -> ~ In x a -> sorted (insort a x).
Proof.
  intros a x Sa Hx Ha Nx. unfold insort. cbv zeta. destruct (bisect_right_spec a x Sa) as [L R]. set (i := bisect_right a x) in *.
  rewrite <- (firstn_skipn i a) in Sa, Ha, Nx. apply sorted_app in Sa. destruct Sa as (S1 & S2 & S12). apply Forall_app in Ha. destruct Ha as [F1 F2]. rewrite Forall_forall in F1, F2.
  apply sorted_app. split; [exact S1|]. split; [constructor; [exact S2|apply Forall_forall; exact R]|]. intros y z Hy [<-|Hz]; [|auto].
  destruct (canon_tri y x (F1 _ Hy) Hx) as [T|[T|T]]; [exact T| |elim (L _ Hy T)]. subst y. elim Nx. apply in_or_app. left. exact Hy.
Qed.
Lemma list_remove_in : forall a x y, Forall nval a -> nval x -> NoDup a -> (In y (list_remove a x) <-> In y a /\ y <> x).
Proof.
  induction a as [|z a IH]; intros x y Ha Hx N; [cbn; tauto|]. inversion Ha as [|? ? H1 H2]; subst. inversion N as [|? ? N1 N2]; subst. cbn [list_remove].
  destruct (eqb_case n_equals nval Heqn z x H1 Hx) as [[-> E]|[Nz E]]; rewrite E.
  - cbn [In]. split; [intros I; split; [right; exact I|intros ->; contradiction]|]. intros [[->|I] N']; [congruence|exact I].
  - cbn [In]. rewrite IH by assumption. split; [intros [<-|[I N']]; auto|]. intros [[->|I] N']; auto.
Qed.
Lemma list_remove_sorted : forall a x, sorted a -> sorted (list_remove a x).
Proof.
  induction a as [|z a IH]; intros x H; [constructor|]. inversion H as [|? ? H1 H2]; subst. cbn [list_remove]. destruct (n_equals z x); [exact H1|].
  constructor; [auto|]. rewrite Forall_forall in *. intros y Hy. apply H2. clear -Hy. induction a as [|w a IHa]; [destruct Hy|]. cbn [list_remove] in Hy. destruct (n_equals w x); [right; exact Hy|destruct Hy; [left|right]; auto].
Qed.
Lemma filter_sorted : forall f a, sorted a -> sorted (filter f a).
Proof.
  induction a as [|z a IH]; intros H; [constructor|]. inversion H as [|? ? H1 H2]; subst. cbn [filter]. destruct (f z); [|auto]. constructor; [auto|].
  rewrite Forall_forall in *. intros y Hy. apply filter_In in Hy. apply H2. tauto.
Qed.
(** the first key from the bisection point on is the least one not before the prefix *)
Lemma first_at : forall a x, sorted a ->
  match nth_error a (bisect_left a x) with
  | Some k => In k a /\ ~ canon_lt k x /\ (forall k', In k' a -> ~ canon_lt k' x -> k' = k \/ canon_lt k k')
  | None => forall k', In k' a -> canon_lt k' x
  end.
Proof.
  intros a x Sa. destruct (bisect_left_spec a x Sa) as [L R]. set (i := bisect_left a x) in *. destruct (nth_error a i) as [k|] eqn:E.
  - pose proof (nth_split _ _ _ _ E) as Sp. assert (Sk : skipn i a = k :: skipn (S i) a).
    { rewrite Sp at 1. assert (length (firstn i a) = i) by (rewrite firstn_length; assert (i < length a)%nat by (apply nth_error_Some; congruence); lia).
      rewrite skipn_app, H, Nat.sub_diag. rewrite skipn_all2 by lia. reflexivity. }
    rewrite Sk in R. split; [rewrite Sp; apply in_or_app; right; left; reflexivity|]. split; [apply R; left; reflexivity|].
    intros k' I N. rewrite Sp in I, Sa. apply in_app_or in I. destruct I as [I|[<-|I]]; [elim (N (L _ I))|left; reflexivity|right].
    apply sorted_app in Sa. destruct Sa as (_ & S2 & _). inversion S2 as [|? ? _ F]; subst. rewrite Forall_forall in F. auto.
  - apply nth_error_None in E. intros k' I. apply L. rewrite firstn_all2 by exact E. exact I.
Qed.
