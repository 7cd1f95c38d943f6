(** * Lemmas about the shared conventions in [Base]. *)
From Verif Require Import Base.

Lemma zlen_nil : forall A, zlen (@nil A) = 0.
Proof. reflexivity. Qed.
Lemma zlen_cons : forall A (x : A) l, zlen (x :: l) = 1 + zlen l.
Proof. intros. unfold zlen. cbn [length]. lia. Qed.
Lemma zlen_app : forall A (a b : list A), zlen (a ++ b) = zlen a + zlen b.
Proof. intros. unfold zlen. rewrite app_length. lia. Qed.
Lemma zlen_nonneg : forall A (l : list A), 0 <= zlen l.
Proof. intros. unfold zlen. lia. Qed.
Lemma zlen_zero : forall A (l : list A), zlen l = 0 -> l = [].
Proof. intros A [|x l] H; [reflexivity|]. rewrite zlen_cons in H. pose proof (zlen_nonneg A l). lia. Qed.
Lemma zlen_map : forall A B (f : A -> B) l, zlen (map f l) = zlen l.
Proof. intros. unfold zlen. now rewrite map_length. Qed.
Lemma zlen_rev : forall A (l : list A), zlen (rev l) = zlen l.
Proof. intros. unfold zlen. now rewrite rev_length. Qed.
Lemma zlen_firstn : forall A n (l : list A), zlen (firstn n l) = Z.min (Z.of_nat n) (zlen l).
Proof. intros. unfold zlen. rewrite firstn_length. lia. Qed.
Lemma zlen_skipn : forall A n (l : list A), zlen (skipn n l) = Z.max 0 (zlen l - Z.of_nat n).
Proof. intros. unfold zlen. rewrite skipn_length. lia. Qed.

Global Hint Rewrite zlen_nil zlen_cons zlen_app zlen_map zlen_rev : zlen.
Ltac zl := autorewrite with zlen in *; repeat match goal with
  | |- context [zlen ?l] => lazymatch goal with H : 0 <= zlen l |- _ => fail | _ => pose proof (zlen_nonneg _ l) end
  | _ : context [zlen ?l] |- _ => lazymatch goal with H : 0 <= zlen l |- _ => fail | _ => pose proof (zlen_nonneg _ l) end
  end.
Ltac zlia := zl; lia.

Lemma zslice_full : forall A (l : list A), zslice l 0 (zlen l) = l.
Proof.
  intros. unfold zslice. rewrite Z.min_id, Z.sub_0_r.
  rewrite (Z.min_l 0 (zlen l)) by apply zlen_nonneg. cbn [Z.to_nat skipn].
  unfold zlen. rewrite Nat2Z.id. apply firstn_all.
Qed.

Lemma zslice_app : forall A (pre l post : list A),
  zslice (pre ++ l ++ post) (zlen pre) (zlen pre + zlen l) = l.
Proof.
  intros. unfold zslice.
  rewrite (Z.min_l (zlen pre)) by zlia.
  rewrite Z.min_l by zlia.
  unfold zlen at 1 2 3 4. rewrite Nat2Z.id.
  rewrite skipn_app, skipn_all, Nat.sub_diag. cbn [app skipn].
  replace (Z.to_nat _) with (length l) by lia.
  rewrite firstn_app, firstn_all, Nat.sub_diag. cbn [firstn]. apply app_nil_r.
Qed.

Lemma zslice_app' : forall A (pre l post : list A) a b,
  a = zlen pre -> b = zlen pre + zlen l ->
  zslice (pre ++ l ++ post) a b = l.
Proof. intros; subst; apply zslice_app. Qed.

Lemma zslice_length : forall A (l : list A) a b,
  0 <= a <= b -> b <= zlen l -> zlen (zslice l a b) = b - a.
Proof.
  intros. unfold zslice. rewrite zlen_firstn, zlen_skipn. lia.
Qed.

Lemma skipn_skipn' : forall A (m n : nat) (l : list A), skipn m (skipn n l) = skipn (n + m) l.
Proof.
  intros A m n; revert m. induction n; intros; [reflexivity|].
  destruct l; cbn [skipn Nat.add]; [apply skipn_nil|apply IHn].
Qed.

Lemma zslice_split : forall A (l : list A) a b,
  0 <= a <= b -> b <= zlen l ->
  exists pre post, l = pre ++ zslice l a b ++ post /\ zlen pre = a.
Proof.
  intros. exists (firstn (Z.to_nat a) l), (skipn (Z.to_nat b) l). split.
  - unfold zslice. rewrite (Z.min_l a) by lia. rewrite (Z.min_l b) by lia.
    rewrite <- (firstn_skipn (Z.to_nat a) l) at 1. f_equal.
    rewrite <- (firstn_skipn (Z.to_nat (b - a)) (skipn (Z.to_nat a) l)) at 1. f_equal.
    rewrite skipn_skipn'. f_equal. lia.
  - rewrite zlen_firstn. lia.
Qed.

Lemma zlist_eqb_eq : forall a b, zlist_eqb a b = true <-> a = b.
Proof.
  induction a as [|x a IH]; destruct b as [|y b]; cbn [zlist_eqb]; try (split; congruence).
  rewrite andb_true_iff, Z.eqb_eq, IH. split; [intros [-> ->]; reflexivity | intros E; inversion E; auto].
Qed.
Lemma zlist_eqb_refl : forall a, zlist_eqb a a = true.
Proof. intros. now apply zlist_eqb_eq. Qed.

Lemma bytes_ok_app : forall a b, bytes_ok (a ++ b) <-> bytes_ok a /\ bytes_ok b.
Proof. intros. unfold bytes_ok. apply Forall_app. Qed.
Lemma bytes_okb_ok : forall l, bytes_okb l = true <-> bytes_ok l.
Proof.
  intros. unfold bytes_okb, bytes_ok. rewrite forallb_forall, Forall_forall.
  unfold is_byteb, is_byte. split; intros H x Hx; specialize (H x Hx); lia.
Qed.

Lemma app_eq_len : forall A (a b c d : list A), a ++ b = c ++ d -> zlen a = zlen c -> a = c /\ b = d.
Proof.
  intros A a. induction a as [|x a IH]; intros b [|y c] d E L; zl; try lia; cbn [app] in *.
  - auto.
  - inversion E; subst. destruct (IH b c d H3) as [-> ->]; [lia|auto].
Qed.
