(** * Generic list lemmas: counting, sorted lists, splitting a run at its end. *)
From Verif Require Import Base.
From Coq Require Import Lia Sorted.

Definition cnt {A} (p : A -> bool) (l : list A) : nat := length (filter p l).
Lemma cnt_nil {A} (p : A -> bool) : cnt p [] = 0%nat. Proof. reflexivity. Qed.
Lemma cnt_cons {A} (p : A -> bool) x l : cnt p (x :: l) = ((if p x then 1 else 0) + cnt p l)%nat.
Proof. unfold cnt; cbn [filter]; destruct (p x); reflexivity. Qed.
Lemma cnt_app {A} (p : A -> bool) l1 l2 : cnt p (l1 ++ l2) = (cnt p l1 + cnt p l2)%nat.
Proof. unfold cnt. now rewrite filter_app, app_length. Qed.
Lemma cnt_pos {A} (p : A -> bool) l x : In x l -> p x = true -> (1 <= cnt p l)%nat.
Proof. induction l as [|y l IH]; intros [] Hp; rewrite cnt_cons; [subst; rewrite Hp; lia|]. specialize (IH H Hp); lia. Qed.
Lemma cnt_zero {A} (p : A -> bool) l : cnt p l = 0%nat -> forall x, In x l -> p x = false.
Proof. intros H x Hx. destruct (p x) eqn:E; [|reflexivity]. pose proof (cnt_pos p l x Hx E). lia. Qed.
Lemma cnt_zero_of {A} (p : A -> bool) l : (forall x, In x l -> p x = false) -> cnt p l = 0%nat.
Proof. induction l as [|y l IH]; intro H; [reflexivity|]. rewrite cnt_cons, (H y (or_introl eq_refl)), IH; [reflexivity|]. intros; apply H; now right. Qed.
Lemma cnt_ex {A} (p : A -> bool) l : (1 <= cnt p l)%nat -> exists x, In x l /\ p x = true.
Proof. induction l as [|y l IH]; rewrite ?cnt_nil, ?cnt_cons; [lia|]. destruct (p y) eqn:E; [exists y; split; [now left|exact E]|].
  intro H; destruct IH as (x & ? & ?); [lia|]. exists x; split; [now right|assumption]. Qed.
Lemma cnt_rev {A} (p : A -> bool) l : cnt p (rev l) = cnt p l.
Proof. induction l as [|x l IH]; [reflexivity|]. cbn [rev]. rewrite cnt_app, IH, cnt_cons, cnt_cons, cnt_nil. lia. Qed.

Lemma ss_app {A} (R : A -> A -> Prop) l1 l2 : StronglySorted R l1 -> StronglySorted R l2 -> (forall x y, In x l1 -> In y l2 -> R x y) -> StronglySorted R (l1 ++ l2).
Proof. intros H1 H2 H. induction H1 as [|x l Hs IH Hf]; [exact H2|]. cbn. constructor.
  - apply IH. intros a b Ha Hb. apply H; [now right|exact Hb].
  - rewrite Forall_forall in *. intros y Hy. apply in_app_or in Hy. destruct Hy as [Hy|Hy]; [now apply Hf|apply H; [now left|exact Hy]]. Qed.
Lemma ss_app_inv {A} (R : A -> A -> Prop) l1 l2 : StronglySorted R (l1 ++ l2) -> StronglySorted R l1 /\ StronglySorted R l2 /\ (forall x y, In x l1 -> In y l2 -> R x y).
Proof. induction l1 as [|x l1 IH]; cbn; intro H; [repeat split; [constructor|exact H|intros ? ? []]|].
  inversion H as [|? ? Hs Hf]; subst. destruct (IH Hs) as (A1 & A2 & A3). rewrite Forall_forall in Hf.
  split; [constructor; [exact A1|apply Forall_forall; intros y Hy; apply Hf; apply in_or_app; now left]|]. split; [exact A2|].
  intros a b [<-|Ha] Hb; [apply Hf; apply in_or_app; now right|now apply A3]. Qed.

(** A split of [l ++ [x]] is a split of [l] or ends with [x]. *)
Lemma snoc_split {A} (l : list A) x l1 y l2 : l ++ [x] = l1 ++ y :: l2 -> (l = l1 /\ x = y /\ l2 = []) \/ exists l2', l2 = l2' ++ [x] /\ l = l1 ++ y :: l2'.
Proof. destruct (exists_last (l := y :: l2)) as (l2' & z & E); [discriminate|]. rewrite E, app_assoc. intro H. apply app_inj_tail in H. destruct H as [-> ->].
  destruct l2' as [|y' l2']; cbn in E; injection E; intros; subst; [left; now rewrite app_nil_r|right; exists l2'; auto]. Qed.
