(** * Lemmas about names: order, prefixes, successor, numbers. *)
From Verif Require Import Base BaseLemmas TlvModel TlvSpec TlvProofs TlvEncProofs TlvDecProofs NameModel NameSpec.
From Coq Require Import ZifyBool.
Local Open Scope res_scope.

(** ** First-difference order, inductively *)
Section Lex.
  Context {A : Type} (lt : A -> A -> Prop).
  Inductive lexd : list A -> list A -> Prop :=
  | lexd_hd : forall x y r s, lt x y -> lexd (x :: r) (y :: s)
  | lexd_tl : forall x r s, lexd r s -> lexd (x :: r) (x :: s).
  Lemma lexd_iff : forall a b, lexd a b <-> exists p x y r s, a = p ++ x :: r /\ b = p ++ y :: s /\ lt x y.
  Proof.
    intros a b. split.
    - induction 1.
      + exists [], x, y, r, s. auto.
      + destruct IHlexd as (p & x' & y' & r' & s' & -> & -> & L). exists (x :: p), x', y', r', s'. auto.
    - intros (p & x & y & r & s & -> & -> & L). induction p; cbn [app]; [apply lexd_hd|apply lexd_tl]; auto.
  Qed.
  Hypothesis irr : forall x, ~ lt x x.
  Hypothesis tra : forall x y z, lt x y -> lt y z -> lt x z.
  Lemma lexd_irr : forall a, ~ lexd a a.
  Proof. induction a as [|x a IH]; intros H; inversion H; subst; [exact (irr _ H1)|exact (IH H1)]. Qed.
  Lemma lexd_tra : forall a b c, lexd a b -> lexd b c -> lexd a c.
  Proof.
    intros a b c H. revert c. induction H; intros c' H'; inversion H'; subst; try (apply lexd_hd; solve [eauto]); apply lexd_tl; eauto.
  Qed.
  (** or a proper prefix *)
  Definition lexp (a b : list A) : Prop := proper_prefix a b \/ lexd a b.
  Lemma lexp_irr : forall a, ~ lexp a a.
  Proof.
    intros a [(x & s & E)|H]; [|exact (lexd_irr a H)].
    apply (f_equal (@length A)) in E. rewrite app_length in E. cbn in E. lia.
  Qed.
  Lemma lexd_ext : forall a b s t, lexd a b -> lexd (a ++ s) (b ++ t).
  Proof. induction 1; cbn [app]; [apply lexd_hd|apply lexd_tl]; auto. Qed.
  Lemma lexp_tra : forall a b c, lexp a b -> lexp b c -> lexp a c.
  Proof.
    intros a b c [(x & s & ->)|H] [(y & t & ->)|H'].
    - left. exists x, (s ++ y :: t). now rewrite <- app_assoc.
    - clear -H'. revert c H'. induction a as [|z a IH]; intros c H'.
      + inversion H'; subst; left; eexists; eexists; reflexivity.
      + cbn [app] in H'. inversion H'; subst.
        * right. now apply lexd_hd.
        * destruct (IH _ H2) as [(u & v & ->)|L]; [left; exists u, v; reflexivity|right; now apply lexd_tl].
    - right. rewrite <- (app_nil_r a). now apply lexd_ext.
    - right. eapply lexd_tra; eauto.
  Qed.
End Lex.

Lemma bytes_lt_lexd : forall a b, bytes_lt a b <-> lexd Z.lt a b.
Proof. intros. symmetry. apply lexd_iff. Qed.
Lemma name_lt_lexp : forall a b, name_lt a b <-> lexp key_lt a b.
Proof. intros. unfold name_lt, lexp. rewrite lexd_iff. reflexivity. Qed.

Lemma key_lt_irr : forall k, ~ key_lt k k.
Proof.
  intros k [H|[_ [H|[_ H]]]]; try lia. apply bytes_lt_lexd in H. revert H. apply lexd_irr. intros; lia.
Qed.
Lemma key_lt_tra : forall a b c, key_lt a b -> key_lt b c -> key_lt a c.
Proof.
  unfold key_lt. intros a b c H1 H2.
  destruct H1 as [H1|[E1 [H1|[L1 H1]]]], H2 as [H2|[E2 [H2|[L2 H2]]]];
    try (left; lia); right; (split; [congruence|]); try (left; lia).
  right. split; [congruence|]. rewrite bytes_lt_lexd in *. eapply lexd_tra; eauto. intros; lia.
Qed.
Lemma name_lt_irr : forall a, ~ name_lt a a.
Proof. intros a. rewrite name_lt_lexp. apply lexp_irr, key_lt_irr. Qed.
Lemma name_lt_tra : forall a b c, name_lt a b -> name_lt b c -> name_lt a c.
Proof. intros a b c. rewrite !name_lt_lexp. apply lexp_tra. apply key_lt_tra. Qed.

(** ** compare *)

Lemma blob_compare_cases : forall a b, length a = length b ->
  (blob_compare a b = -1 /\ bytes_lt a b) \/ (blob_compare a b = 0 /\ a = b) \/ (blob_compare a b = 1 /\ bytes_lt b a).
Proof.
  induction a as [|x a IH]; intros [|y b] H; try discriminate; cbn [blob_compare].
  - auto.
  - cbn [length] in H. injection H as H. destruct (x <? y) eqn:E1; [left; split; [reflexivity|]; apply bytes_lt_lexd; apply lexd_hd; lia|].
    destruct (y <? x) eqn:E2; [right; right; split; [reflexivity|]; apply bytes_lt_lexd; apply lexd_hd; lia|].
    assert (x = y) by lia. subst y. destruct (IH b H) as [[-> L]|[[-> ->]|[-> L]]].
    + left. split; [reflexivity|]. apply bytes_lt_lexd. apply lexd_tl. now apply bytes_lt_lexd.
    + auto.
    + right; right. split; [reflexivity|]. apply bytes_lt_lexd. apply lexd_tl. now apply bytes_lt_lexd.
Qed.

Lemma c_compare_cases : forall a b,
  (c_compare a b = -1 /\ key_lt (c_key a) (c_key b)) \/
  (c_compare a b = 0 /\ c_key a = c_key b) \/
  (c_compare a b = 1 /\ key_lt (c_key b) (c_key a)).
Proof.
  intros a b. unfold c_compare, c_key, key_lt. cbn [fst snd]. change c_code with c_typeCode.
  destruct (c_typeCode a <? c_typeCode b) eqn:E1; [left; split; [reflexivity|left; lia]|].
  destruct (c_typeCode b <? c_typeCode a) eqn:E2; [right; right; split; [reflexivity|left; lia]|].
  assert (T : c_typeCode a = c_typeCode b) by lia.
  destruct (zlen (c_value a) <? zlen (c_value b)) eqn:E3; [left; split; [reflexivity|right; split; [lia|left; lia]]|].
  destruct (zlen (c_value b) <? zlen (c_value a)) eqn:E4; [right; right; split; [reflexivity|right; split; [lia|left; lia]]|].
  assert (L : zlen (c_value a) = zlen (c_value b)) by lia.
  destruct (blob_compare_cases (c_value a) (c_value b)) as [[-> H]|[[-> H]|[-> H]]]; [unfold zlen in L; lia|..].
  - left. split; [reflexivity|]. right. split; [lia|]. right. auto.
  - right; left. split; [reflexivity|]. congruence.
  - right; right. split; [reflexivity|]. right. split; [lia|]. right. auto.
Qed.

(** Full-name comparison as a recursive function. *)
Fixpoint n_cmp (a b : name) : Z :=
  match a, b with
  | [], [] => 0
  | [], _ :: _ => -1
  | _ :: _, [] => 1
  | x :: a', y :: b' => if c_compare x y =? 0 then n_cmp a' b' else c_compare x y
  end.

Lemma n_cmp_cases : forall a b,
  (n_cmp a b = -1 /\ name_lt (n_key a) (n_key b)) \/
  (n_cmp a b = 0 /\ n_key a = n_key b) \/
  (n_cmp a b = 1 /\ name_lt (n_key b) (n_key a)).
Proof.
  induction a as [|x a IH]; intros [|y b]; cbn [n_cmp n_key map].
  - auto.
  - left. split; [reflexivity|]. left. eexists; eexists; reflexivity.
  - right; right. split; [reflexivity|]. left. eexists; eexists; reflexivity.
  - destruct (c_compare_cases x y) as [[-> H]|[[-> H]|[-> H]]]; cbn [Z.eqb].
    + left. split; [reflexivity|]. apply name_lt_lexp. right. now apply lexd_hd.
    + rewrite H. destruct (IH b) as [[-> L]|[[-> L]|[-> L]]].
      * left. split; [reflexivity|]. apply name_lt_lexp. apply name_lt_lexp in L.
        destruct L as [(u & v & E)|L]; [left; exists u, v; unfold n_key in E; now rewrite E|right; now apply lexd_tl].
      * right; left. split; [reflexivity|]. unfold n_key in L. congruence.
      * right; right. split; [reflexivity|]. apply name_lt_lexp. apply name_lt_lexp in L.
        destruct L as [(u & v & E)|L]; [left; exists u, v; unfold n_key in E; now rewrite E|right; now apply lexd_tl].
    + right; right. split; [reflexivity|]. apply name_lt_lexp. right. now apply lexd_hd.
Qed.

Lemma py_getitem_app : forall A (p : list A) x r, py_getitem (p ++ x :: r) (zlen p) = Ok x.
Proof.
  intros. unfold py_getitem. replace (zlen p <? 0) with false by zlia.
  replace (_ && _) with true by zlia.
  unfold zlen. rewrite Nat2Z.id, nth_error_app2, Nat.sub_diag by lia. reflexivity.
Qed.

Lemma n_compare_loop_eq : forall k a b pa pb ra rb, a = pa ++ ra -> b = pb ++ rb ->
  (k <= length ra)%nat -> (k <= length rb)%nat ->
  n_compare_loop a b (zlen pa) (zlen pb) k = Ok (n_cmp (firstn k ra) (firstn k rb)).
Proof.
  induction k as [|k IH]; intros a b pa pb ra rb -> -> Ha Hb; [reflexivity|].
  destruct ra as [|x ra]; [cbn in Ha; lia|]. destruct rb as [|y rb]; [cbn in Hb; lia|].
  cbn [n_compare_loop firstn n_cmp]. rewrite !py_getitem_app. cbn [rbind].
  destruct (c_compare x y =? 0); [|reflexivity].
  replace (zlen pa + 1) with (zlen (pa ++ [x])) by zlia. replace (zlen pb + 1) with (zlen (pb ++ [y])) by zlia.
  apply IH; cbn [length] in *; try lia; rewrite <- app_assoc; reflexivity.
Qed.

Lemma n_cmp_firstn : forall a b, let k := Nat.min (length a) (length b) in
  n_cmp a b = if n_cmp (firstn k a) (firstn k b) =? 0 then
                (if Nat.ltb (length a) (length b) then -1 else if Nat.ltb (length b) (length a) then 1 else 0)
              else n_cmp (firstn k a) (firstn k b).
Proof.
  induction a as [|x a IH]; intros [|y b]; cbn [length Nat.min firstn n_cmp]; try reflexivity.
  destruct (c_compare x y =? 0) eqn:E; [|rewrite E; reflexivity].
  specialize (IH b). cbn zeta in IH. rewrite IH at 1. reflexivity.
Qed.

Lemma n_compareSub_range : forall a b i k j m,
  - zlen a <= i <= zlen a -> - zlen b <= j <= zlen b -> 0 <= k -> 0 <= m ->
  let i' := if i <? 0 then zlen a + i else i in
  let j' := if j <? 0 then zlen b + j else j in
  n_compareSub a i k b j (Some m) = Ok (n_cmp (zslice a i' (i' + k)) (zslice b j' (j' + m))).
Proof.
  intros a b i k j m Hi Hj Hk Hm i' j'. unfold n_compareSub.
  replace (if i <? 0 then zlen a - - i else i) with i' by (unfold i'; destruct (i <? 0); lia).
  replace (if j <? 0 then zlen b - - j else j) with j' by (unfold j'; destruct (j <? 0); lia).
  assert (Hi' : 0 <= i' <= zlen a) by (unfold i'; destruct (i <? 0) eqn:?; lia).
  assert (Hj' : 0 <= j' <= zlen b) by (unfold j'; destruct (j <? 0) eqn:?; lia).
  clearbody i' j'. clear i j Hi Hj.
  assert (Ga : exists pa ra, a = pa ++ ra /\ i' = zlen pa).
  { exists (firstn (Z.to_nat i') a), (skipn (Z.to_nat i') a). split; [symmetry; apply firstn_skipn|rewrite zlen_firstn; lia]. }
  assert (Gb : exists pb rb, b = pb ++ rb /\ j' = zlen pb).
  { exists (firstn (Z.to_nat j') b), (skipn (Z.to_nat j') b). split; [symmetry; apply firstn_skipn|rewrite zlen_firstn; lia]. }
  destruct Ga as (pa & ra & -> & ->). destruct Gb as (pb & rb & -> & ->).
  assert (Sl : forall A (p r : list A) q, 0 <= q -> zslice (p ++ r) (zlen p) (zlen p + q) = firstn (Z.to_nat q) r).
  { clear. intros A p r q Hq. unfold zslice. rewrite (Z.min_l (zlen p)) by zlia.
    replace (skipn (Z.to_nat (zlen p)) (p ++ r)) with r
      by (unfold zlen; rewrite Nat2Z.id, skipn_app, skipn_all, Nat.sub_diag; reflexivity).
    destruct (Z.le_gt_cases q (zlen r)).
    - f_equal. zlia.
    - rewrite !firstn_all2; [reflexivity|unfold zlen in *; lia|]. zl. unfold zlen in *. lia. }
  rewrite !Sl by assumption.
  replace (Z.min k (zlen (pa ++ ra) - zlen pa)) with (Z.min k (zlen ra)) by zlia.
  replace (Z.min m (zlen (pb ++ rb) - zlen pb)) with (Z.min m (zlen rb)) by zlia.
  rewrite (n_compare_loop_eq _ _ _ pa pb ra rb eq_refl eq_refl) by (unfold zlen; lia).
  cbn [rbind]. set (fa := firstn (Z.to_nat k) ra). set (fb := firstn (Z.to_nat m) rb).
  rewrite (n_cmp_firstn fa fb). cbn zeta.
  assert (La : Z.of_nat (length fa) = Z.min k (zlen ra)) by (unfold fa; rewrite firstn_length; unfold zlen; lia).
  assert (Lb : Z.of_nat (length fb) = Z.min m (zlen rb)) by (unfold fb; rewrite firstn_length; unfold zlen; lia).
  replace (firstn (Z.to_nat (Z.min (Z.min k (zlen ra)) (Z.min m (zlen rb)))) ra) with (firstn (Nat.min (length fa) (length fb)) fa).
  2:{ unfold fa at 2. rewrite firstn_firstn. f_equal. lia. }
  replace (firstn (Z.to_nat (Z.min (Z.min k (zlen ra)) (Z.min m (zlen rb)))) rb) with (firstn (Nat.min (length fa) (length fb)) fb).
  2:{ unfold fb at 2. rewrite firstn_firstn. f_equal. lia. }
  rewrite <- La, <- Lb.
  destruct (n_cmp (firstn _ fa) (firstn _ fb) =? 0); cbn [negb]; [|reflexivity].
  destruct (Nat.ltb_spec (length fa) (length fb)).
  - replace (Z.of_nat (length fa) <? Z.of_nat (length fb)) with true by lia. reflexivity.
  - replace (Z.of_nat (length fa) <? Z.of_nat (length fb)) with false by lia.
    destruct (Nat.ltb_spec (length fb) (length fa)).
    + replace (Z.of_nat (length fb) <? Z.of_nat (length fa)) with true by lia. reflexivity.
    + replace (Z.of_nat (length fb) <? Z.of_nat (length fa)) with false by lia. reflexivity.
Qed.

Lemma n_compare_cmp : forall a b, n_compare a b = Ok (n_cmp a b).
Proof.
  intros a b. unfold n_compare.
  change (n_compareSub a 0 (zlen a) b 0 None) with (n_compareSub a 0 (zlen a) b 0 (Some (zlen b))).
  rewrite n_compareSub_range by zlia. cbn [Z.ltb Z.compare]. rewrite !Z.add_0_l, !zslice_full. reflexivity.
Qed.

(** ** equals *)
Lemma c_equals_iff_key : forall a b, c_valid a -> c_valid b -> (c_equals a b = true <-> c_key a = c_key b).
Proof.
  intros [ta oa va] [tb ob vb] [_ Ha] [_ Hb]. unfold c_equals, c_key, c_code, c_typeCode, blob_equals, CT_OTHER, CT_IMPLICIT, CT_PARAMS, CT_GENERIC in *.
  cbn [c_type c_other c_value] in *.
  assert (E : zlist_eqb va vb = true <-> va = vb) by apply zlist_eqb_eq.
  destruct (ta =? 32767) eqn:A, (tb =? 32767) eqn:B; rewrite ?andb_true_r, ?andb_false_r, ?andb_true_iff; split; intros H;
    try discriminate; try (destruct H as [H1 H2]; apply E in H1; f_equal; auto; lia);
    try (inversion H; subst; split; [now apply E|lia]); exfalso; inversion H; subst; lia.
Qed.
Lemma c_valid_key_inj : forall a b, c_valid a -> c_valid b -> c_key a = c_key b -> a = b.
Proof.
  intros [ta oa va] [tb ob vb] [_ Ha] [_ Hb] H. unfold c_key, c_code, c_typeCode, CT_OTHER, CT_IMPLICIT, CT_PARAMS, CT_GENERIC in *.
  cbn [c_type c_other c_value] in *. inversion H as [[H1 H2]]. subst.
  destruct (ta =? 32767) eqn:A, (tb =? 32767) eqn:B; f_equal; lia.
Qed.

Lemma n_equals_iff_key : forall a b, Forall c_valid a -> Forall c_valid b -> (n_equals a b = true <-> n_key a = n_key b).
Proof.
  induction a as [|x a IH]; intros [|y b] Ha Hb; cbn [n_equals n_key map]; try (split; (discriminate || reflexivity)).
  inversion Ha as [|? ? Hx Ha']; inversion Hb as [|? ? Hy Hb']; subst. rewrite andb_true_iff, (IH b Ha' Hb'), (c_equals_iff_key x y Hx Hy).
  unfold n_key. split.
  - intros [E1 E2]. now rewrite E1, E2.
  - intros E. split; congruence.
Qed.
Lemma n_valid_key_inj : forall a b, Forall c_valid a -> Forall c_valid b -> n_key a = n_key b -> a = b.
Proof.
  induction a as [|x a IH]; intros [|y b] Ha Hb H; cbn [n_key map] in H; try discriminate; [reflexivity|].
  inversion Ha as [|? ? Hx Ha']; inversion Hb as [|? ? Hy Hb']; subst. 
  assert (E1 : c_key x = c_key y) by congruence. assert (E2 : n_key a = n_key b) by (unfold n_key; congruence).
  f_equal; [now apply c_valid_key_inj|now apply IH].
Qed.

(** ** match *)
Lemma n_match_iff : forall a b, n_match a b = true <-> prefix (map c_value a) (map c_value b).
Proof.
  intros a b. unfold n_match.
  assert (G : n_match_values a b = true <-> prefix (map c_value a) (map c_value b)).
  { revert b. induction a as [|x a IH]; intros b; cbn [n_match_values map].
    - split; [intros _; eexists; reflexivity|reflexivity].
    - destruct b as [|y b]; cbn [map].
      + split; [discriminate|]. intros [s E]. discriminate.
      + rewrite andb_true_iff, IH. unfold blob_equals. rewrite zlist_eqb_eq. split.
        * intros [[s ->] ->]. exists s. reflexivity.
        * intros [s E]. cbn [app] in E. inversion E. split; [exists s; assumption|congruence]. }
  destruct (zlen b <? zlen a) eqn:E; [|exact G].
  split; [discriminate|]. intros [s Es]. apply (f_equal (@length bytes)) in Es.
  rewrite app_length, !map_length in Es. unfold zlen in E. lia.
Qed.

(** ** getSubName, getPrefix, slices *)
Lemma py_collect_ok : forall A k (l : list A) a, 0 <= a -> a + Z.of_nat k <= zlen l ->
  py_collect l a k = Ok (zslice l a (a + Z.of_nat k)).
Proof.
  induction k as [|k IH]; intros l a Ha Hk.
  - cbn [py_collect]. unfold zslice. replace (Z.to_nat _) with 0%nat by lia. reflexivity.
  - cbn [py_collect].
    assert (G : exists p x r, l = p ++ x :: r /\ a = zlen p).
    { exists (firstn (Z.to_nat a) l). destruct (skipn (Z.to_nat a) l) as [|x r] eqn:E.
      - apply (f_equal (@length A)) in E. rewrite skipn_length in E. cbn in E. unfold zlen in *. lia.
      - exists x, r. split; [rewrite <- E; symmetry; apply firstn_skipn|rewrite zlen_firstn; lia]. }
    destruct G as (p & x & r & -> & ->). rewrite py_getitem_app. cbn [rbind].
    rewrite IH by zlia. cbn [rbind]. f_equal.
    unfold zslice. zl. rewrite !(Z.min_l _ (zlen p + (1 + zlen r))) by lia.
    replace (Z.to_nat (zlen p + 1)) with (length p + 1)%nat by (unfold zlen; lia).
    replace (Z.to_nat (zlen p)) with (length p) by (unfold zlen; lia).
    rewrite !skipn_app, skipn_all, Nat.sub_diag. rewrite (skipn_all2 p) by lia.
    replace (length p + 1 - length p)%nat with 1%nat by lia. cbn [app skipn].
    replace (Z.to_nat (zlen p + Z.of_nat (S k) - zlen p)) with (S k) by lia.
    cbn [firstn]. f_equal. f_equal. lia.
Qed.

Lemma n_getSubName_ok : forall n i k, - zlen n <= i -> 0 <= k ->
  let i' := if i <? 0 then zlen n + i else i in
  n_getSubName n i (Some k) = Ok (zslice n i' (i' + k)).
Proof.
  intros n i k Hi Hk i'. unfold n_getSubName.
  replace (if i <? 0 then zlen n - - i else i) with i' by (unfold i'; destruct (i <? 0); lia).
  assert (0 <= i') by (unfold i'; destruct (i <? 0) eqn:?; lia). clearbody i'.
  destruct (Z.le_gt_cases i' (zlen n)).
  - rewrite py_collect_ok by lia. f_equal.
    destruct (Z.le_gt_cases (i' + k) (zlen n)); [f_equal; lia|].
    unfold zslice. f_equal. lia.
  - replace (Z.to_nat _) with 0%nat by lia. cbn [py_collect]. f_equal. unfold zslice.
    replace (Z.to_nat (Z.min (i' + k) (zlen n) - i')) with 0%nat by lia. reflexivity.
Qed.

Lemma zslice_prefix : forall A (l : list A) k, 0 <= k -> zslice l 0 k = firstn (Z.to_nat k) l.
Proof.
  intros. unfold zslice. rewrite (Z.min_l 0) by zlia. cbn [Z.to_nat skipn]. rewrite Z.sub_0_r.
  destruct (Z.le_gt_cases k (zlen l)); [f_equal; lia|].
  rewrite !firstn_all2; [reflexivity|unfold zlen in *; lia|unfold zlen in *; lia].
Qed.

Lemma n_getPrefix_ok : forall n k, n_getPrefix n k = Ok (firstn (Z.to_nat (if k <? 0 then zlen n + k else k)) n).
Proof.
  intros n k. unfold n_getPrefix. destruct (k <? 0) eqn:E.
  - destruct (Z.le_gt_cases 0 (zlen n + k)).
    + rewrite n_getSubName_ok by zlia. cbn [Z.ltb Z.compare]. rewrite Z.add_0_l. f_equal. now apply zslice_prefix.
    + unfold n_getSubName. cbn [Z.ltb Z.compare].
      replace (Z.to_nat (Z.min (0 + (zlen n + k)) (zlen n) - 0)) with 0%nat by zlia.
      replace (Z.to_nat (zlen n + k)) with 0%nat by lia. reflexivity.
  - rewrite n_getSubName_ok by zlia. cbn [Z.ltb Z.compare]. rewrite Z.add_0_l. f_equal. apply zslice_prefix. lia.
Qed.

(** ** Successor *)
(** Numeric view of a byte string: big-endian value. *)
Lemma succ_loop_false : forall l, succ_loop l false = (l, false).
Proof. induction l as [|b l IH]; [reflexivity|]. cbn [succ_loop]. now rewrite IH. Qed.

(** Value of a reversed (least significant first) byte string. *)
Fixpoint le_value (l : bytes) : Z := match l with [] => 0 | b :: l' => b + 256 * le_value l' end.

Lemma le_value_rev : forall l, be_value (rev l) = le_value l.
Proof.
  induction l as [|b l IH]; [reflexivity|]. cbn [rev le_value]. rewrite be_value_app, IH.
  rewrite zlen_cons, zlen_nil, be_value_cons, zlen_nil, be_value_nil. lia.
Qed.

Lemma succ_loop_spec : forall l, bytes_ok l ->
  let '(r, c) := succ_loop l true in
  bytes_ok r /\ length r = length l /\
  (c = false -> le_value r = le_value l + 1) /\
  (c = true -> le_value l + 1 = 256 ^ zlen l /\ le_value r = 0).
Proof.
  induction l as [|b l IH]; intros H; cbn [succ_loop].
  - repeat split; auto; discriminate.
  - inversion H as [|? ? Hb Hl]; subst. unfold is_byte in Hb.
    assert (E : Z.land (b + 1) 255 = (b + 1) mod 256) by apply land_255.
    rewrite E. destruct ((b + 1) mod 256 =? 0) eqn:Z0.
    + assert (b = 255) by (assert ((b + 1) / 256 = 1 \/ (b + 1) / 256 = 0) by (Z.to_euclidean_division_equations; lia); Z.to_euclidean_division_equations; lia).
      subst b. specialize (IH Hl). destruct (succ_loop l true) as [r c]. destruct IH as (B & L & F & T).
      cbn [fst snd]. repeat split.
      * constructor; [unfold is_byte; vm_compute; split; congruence|assumption].
      * cbn [length]. lia.
      * intros C. cbn [le_value]. rewrite (F C). change ((255 + 1) mod 256) with 0. lia.
      * cbn [le_value]. rewrite zlen_cons, Z.pow_add_r by zlia. destruct (T H0). lia.
      * cbn [le_value]. destruct (T H0). change ((255 + 1) mod 256) with 0. lia.
    + rewrite succ_loop_false.
      assert (b < 255). { destruct (Z.eq_dec b 255); [subst; discriminate|lia]. }
      rewrite Z.mod_small by lia. repeat split; try discriminate.
      * constructor; [unfold is_byte; lia|assumption].
      * intros _. cbn [le_value]. lia.
Qed.

(** Equal-length byte strings: lexicographic order is numeric order. *)
Lemma bytes_lt_value : forall a b, bytes_ok a -> bytes_ok b -> length a = length b ->
  (bytes_lt a b <-> be_value a < be_value b).
Proof.
  intros a b. rewrite bytes_lt_lexd. revert b.
  induction a as [|x a IH]; intros [|y b] Ha Hb L; try discriminate.
  - split; [intros H; inversion H|lia].
  - inversion Ha as [|? ? Hx Ha']; inversion Hb as [|? ? Hy Hb']; subst. cbn [length] in L. injection L as L.
    rewrite !be_value_cons. replace (zlen b) with (zlen a) by (unfold zlen; lia).
    pose proof (be_value_bound a Ha'). pose proof (be_value_bound b Hb').
    replace (zlen b) with (zlen a) in * by (unfold zlen; lia).
    specialize (IH b Ha' Hb' L). split.
    + intros H1. inversion H1; subst; [nia|]. apply IH in H3. lia.
    + intros H1. destruct (Z.lt_trichotomy x y) as [T|[->|T]]; [now apply lexd_hd| |nia].
      apply lexd_tl, IH. lia.
Qed.

Definition succ_bytes (v : bytes) : bytes :=
  let '(rr, carry) := succ_loop (rev v) true in if carry then rev rr ++ [0] else rev rr.

Lemma zeros_value : forall l, bytes_ok l -> le_value l = 0 -> forall x, In x l -> x = 0.
Proof.
  induction l as [|b l IH]; intros H V x I; [destruct I|]. inversion H as [|? ? Hb Hl]; subst. unfold is_byte in Hb.
  cbn [le_value] in V.
  assert (0 <= le_value l) by (rewrite <- le_value_rev; apply be_value_bound; unfold bytes_ok in *; apply Forall_rev; assumption).
  destruct I as [<-|I]; [lia|]. apply IH; auto; lia.
Qed.

Lemma bytes_ok_rev : forall l, bytes_ok l -> bytes_ok (rev l).
Proof. intros. apply Forall_rev. assumption. Qed.

Lemma succ_bytes_cases : forall v, bytes_ok v ->
  bytes_ok (succ_bytes v) /\
  ((zlen (succ_bytes v) = zlen v /\ be_value (succ_bytes v) = be_value v + 1) \/
   (zlen (succ_bytes v) = zlen v + 1 /\ be_value v + 1 = 256 ^ zlen v /\ be_value (succ_bytes v) = 0)).
Proof.
  intros v H. unfold succ_bytes. pose proof (succ_loop_spec (rev v) (bytes_ok_rev v H)) as S.
  destruct (succ_loop (rev v) true) as [r c]. destruct S as (B & L & F & T). rewrite rev_length in L.
  assert (V : be_value v = le_value (rev v)) by (rewrite <- le_value_rev, rev_involutive; reflexivity).
  destruct c.
  - destruct (T eq_refl) as [T1 T2]. rewrite zlen_rev in T1. split.
    + apply bytes_ok_app. split; [now apply bytes_ok_rev|]. repeat constructor; unfold is_byte; lia.
    + right. repeat split.
      * zl. unfold zlen in *. lia.
      * lia.
      * rewrite be_value_app, le_value_rev, T2. cbn. lia.
  - specialize (F eq_refl). split; [now apply bytes_ok_rev|]. left. split.
    + zl. unfold zlen. lia.
    + rewrite le_value_rev. lia.
Qed.

Lemma c_getSuccessor_eq : forall c, c_getSuccessor c = Comp (c_type c) (c_other c) (succ_bytes (c_value c)).
Proof. intros. unfold c_getSuccessor, succ_bytes. destruct (succ_loop _ _); reflexivity. Qed.

Lemma c_succ_key : forall c, c_key (c_getSuccessor c) = (fst (c_key c), succ_bytes (snd (c_key c))).
Proof. intros. rewrite c_getSuccessor_eq. reflexivity. Qed.

Lemma succ_key_gt : forall t v, bytes_ok v -> key_lt (t, v) (t, succ_bytes v).
Proof.
  intros t v H. right. cbn [fst snd]. split; [reflexivity|].
  destruct (succ_bytes_cases v H) as [B [[L V]|[L V]]]; [right|left; lia].
  split; [lia|]. apply bytes_lt_value; auto; [unfold zlen in L; lia|lia].
Qed.

Lemma be_value_inj : forall a b, bytes_ok a -> bytes_ok b -> length a = length b -> be_value a = be_value b -> a = b.
Proof. intros a b Ha Hb L E. rewrite <- (be_be_value a Ha), <- (be_be_value b Hb). congruence. Qed.

Lemma succ_key_least : forall t v z, bytes_ok v -> bytes_ok (snd z) -> key_lt (t, v) z ->
  (t, succ_bytes v) = z \/ key_lt (t, succ_bytes v) z.
Proof.
  intros t v [t' w] Hv Hw [H|[E [H|[L H]]]]; cbn [fst snd] in *.
  - right. left. cbn [fst]. lia.
  - subst t'. destruct (succ_bytes_cases v Hv) as [B [[L V]|(L & V1 & V2)]].
    + right. right. split; [reflexivity|]. left. cbn [snd]. lia.
    + destruct (Z.eq_dec (zlen w) (zlen v + 1)) as [E|E].
      * destruct (Z.eq_dec (be_value w) 0) as [Z0|NZ].
        -- left. f_equal. apply be_value_inj; auto; [unfold zlen in *; lia|lia].
        -- right. right. split; [reflexivity|]. right. cbn [snd]. split; [lia|].
           apply bytes_lt_value; auto; [unfold zlen in *; lia|]. pose proof (be_value_bound w Hw). lia.
      * right. right. split; [reflexivity|]. left. cbn [snd]. lia.
  - subst t'. apply bytes_lt_value in H; auto; [|unfold zlen in L; lia].
    pose proof (be_value_bound w Hw) as Bw. rewrite <- L in Bw.
    destruct (succ_bytes_cases v Hv) as [B [[L' V]|(L' & V1 & V2)]]; [|lia].
    destruct (Z.eq_dec (be_value w) (be_value v + 1)).
    + left. f_equal. apply be_value_inj; auto; [unfold zlen in *; lia|lia].
    + right. right. split; [reflexivity|]. right. cbn [snd]. split; [lia|].
      apply bytes_lt_value; auto; [unfold zlen in *; lia|lia].
Qed.

Lemma n_getSuccessor_snoc : forall p c, n_getSuccessor (p ++ [c]) = Ok (p ++ [c_getSuccessor c]).
Proof.
  intros. unfold n_getSuccessor. replace (zlen (p ++ [c]) =? 0) with false by zlia.
  rewrite n_getPrefix_ok. cbn [Z.ltb Z.compare rbind].
  replace (Z.to_nat (zlen (p ++ [c]) + -1)) with (length p) by (zl; unfold zlen; lia).
  rewrite firstn_app, firstn_all, Nat.sub_diag, firstn_O, app_nil_r.
  assert (G : py_getitem (p ++ [c]) (-1) = Ok c).
  { unfold py_getitem. cbn [Z.ltb Z.compare]. replace (-1 + zlen (p ++ [c])) with (zlen p) by zlia.
    replace (_ && _) with true by zlia. unfold zlen. rewrite Nat2Z.id, nth_error_app2, Nat.sub_diag by lia. reflexivity. }
  rewrite G. reflexivity.
Qed.

(** In key terms: successor of [p ++ [(t,v)]]. *)
Lemma name_succ_gt_children : forall p t v s, bytes_ok v -> name_lt (p ++ (t, v) :: s) (p ++ [(t, succ_bytes v)]).
Proof.
  intros. right. exists p, (t, v), (t, succ_bytes v), s, []. repeat split. now apply succ_key_gt.
Qed.

Lemma name_succ_least : forall p t v z, bytes_ok v -> Forall (fun k => bytes_ok (snd k)) z ->
  name_lt (p ++ [(t, v)]) z ->
  proper_prefix (p ++ [(t, v)]) z \/ p ++ [(t, succ_bytes v)] = z \/ name_lt (p ++ [(t, succ_bytes v)]) z.
Proof.
  intros p t v z Hv Hz H. apply name_lt_lexp in H. destruct H as [H|H]; [left; exact H|]. right.
  revert z Hz H. induction p as [|q p IH]; intros z Hz H; cbn [app] in *.
  - inversion H as [x0 y r s K|x0 r s K]; subst.
    + inversion Hz as [|? ? By Bs]; subst. destruct (succ_key_least t v y Hv By K) as [<-|L].
      * destruct s as [|w s]; [left; reflexivity|right; left; eexists; eexists; reflexivity].
      * right. apply name_lt_lexp. right. now apply lexd_hd.
    + inversion K.
  - inversion H as [x0 y r s K|x0 r s K]; subst.
    + right. apply name_lt_lexp. right. now apply lexd_hd.
    + inversion Hz as [|? ? By Bs]; subst. destruct (IH s Bs K) as [<-|L]; [left; reflexivity|right].
      apply name_lt_lexp. apply name_lt_lexp in L. destruct L as [(x & r & ->)|L].
      * left. exists x, r. reflexivity.
      * right. now apply lexd_tl.
Qed.

(** ** Number components *)
Lemma be_value_fold : forall l, fold_left (fun r b => r * 256 + b) l 0 = be_value l.
Proof. reflexivity. Qed.

Lemma nonneg_value : forall n, 0 <= n -> be_value (nonneg n) = n mod 2 ^ 64.
Proof.
  intros n H. destruct (nonneg_cases n H) as [[B ->]|[[B ->]|[[B ->]|[B ->]]]]; rewrite be_value_be.
  - change (256 ^ Z.of_nat 1) with (2 ^ 8). rewrite !Z.mod_small by lia. reflexivity.
  - change (256 ^ Z.of_nat 2) with (2 ^ 16). rewrite !Z.mod_small by lia. reflexivity.
  - change (256 ^ Z.of_nat 4) with (2 ^ 32). rewrite !Z.mod_small by lia. reflexivity.
  - reflexivity.
Qed.

Lemma c_fromNumber_ok : forall n, 0 <= n -> c_fromNumber n = Ok (c_generic (nonneg n)).
Proof.
  intros n H. unfold c_fromNumber, le_writeNonNegativeInteger. replace (n <? 0) with false by lia.
  destruct (le_put_rep (le_new 8) [] (nonNegativeInteger_bytes n) (le_rep_new 8 ltac:(lia))) as (e & -> & R).
  cbn [rbind]. apply le_getOutput_rep in R. destruct R as [-> _]. rewrite app_nil_r, nonNegativeInteger_bytes_nonneg by lia. reflexivity.
Qed.

Lemma c_fromMarker_ok : forall n m, 0 <= n -> is_byte m -> c_fromNumberWithMarker n m = Ok (c_generic (m :: nonneg n)).
Proof.
  intros n m H Hm. unfold is_byte in Hm. unfold c_fromNumberWithMarker, le_writeNonNegativeInteger.
  replace (n <? 0) with false by lia. replace (m <? 0) with false by lia.
  destruct (le_put_rep (le_new 9) [] (nonNegativeInteger_bytes n) (le_rep_new 9 ltac:(lia))) as (e & -> & R).
  cbn [rbind]. destruct (le_put_rep e _ (nonNegativeInteger_bytes m) R) as (e' & -> & R').
  cbn [rbind]. apply le_getOutput_rep in R'. destruct R' as [-> _]. rewrite app_nil_r, !nonNegativeInteger_bytes_nonneg by lia.
  replace (nonneg m) with [m]; [reflexivity|]. unfold nonneg. replace (m <? 2 ^ 8) with true by lia.
  cbn [be]. rewrite Z.div_1_r, Z.mod_small by lia. reflexivity.
Qed.

Lemma nonneg_mono : forall a b, 0 <= a < b -> b < 2 ^ 64 ->
  key_lt (CT_GENERIC, nonneg a) (CT_GENERIC, nonneg b).
Proof.
  intros a b H Hb. right. cbn [fst snd]. split; [reflexivity|].
  assert (V : be_value (nonneg a) < be_value (nonneg b)) by (rewrite !nonneg_value by lia; rewrite !Z.mod_small by lia; lia).
  assert (L : zlen (nonneg a) <= zlen (nonneg b)).
  { destruct (nonneg_cases a ltac:(lia)) as [[A ->]|[[A ->]|[[A ->]|[A ->]]]];
    destruct (nonneg_cases b ltac:(lia)) as [[B ->]|[[B ->]|[[B ->]|[B ->]]]]; rewrite !zlen_be; lia. }
  destruct (Z.eq_dec (zlen (nonneg a)) (zlen (nonneg b))); [right|left; lia].
  split; [assumption|]. apply bytes_lt_value; auto; [apply nonneg_ok; lia|apply nonneg_ok; lia|unfold zlen in *; lia].
Qed.

Lemma marker_mono : forall m a b, is_byte m -> 0 <= a < b -> b < 2 ^ 64 ->
  key_lt (CT_GENERIC, m :: nonneg a) (CT_GENERIC, m :: nonneg b).
Proof.
  intros m a b Hm H Hb. destruct (nonneg_mono a b H Hb) as [L|[_ [L|[L1 L2]]]]; cbn [fst snd] in *; [lia|..].
  - right. cbn [fst snd]. split; [reflexivity|]. left. zlia.
  - right. cbn [fst snd]. split; [reflexivity|]. right. split; [zlia|].
    apply bytes_lt_lexd. apply lexd_tl. now apply bytes_lt_lexd.
Qed.
