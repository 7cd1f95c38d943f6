(** * Proofs about the lookup table *)
From Verif Require Import Base BaseLemmas IbltModel IbltSpec.
From Coq Require Import Permutation Lia.
Local Open Scope res_scope.

Lemma nth_ext_eq {A} : forall (a b : list A), (forall j, nth_error a j = nth_error b j) -> a = b.
Proof.
  induction a as [|x a IH]; intros [|y b] H; [reflexivity|specialize (H 0%nat); discriminate|specialize (H 0%nat); discriminate|].
  pose proof (H 0%nat) as H0. cbn in H0. injection H0 as ->. f_equal. apply IH. intro j. apply (H (S j)).
Qed.
Lemma modify_ok : forall t i f, (i < length t)%nat -> exists t', modify t i f = Ok t' /\ length t' = length t /\
  forall j, nth_error t' j = option_map (fun e => if (j =? i)%nat then f e else e) (nth_error t j).
Proof.
  induction t as [|e t IH]; intros [|i] f H; cbn [length] in *; try lia; cbn [modify].
  - exists (f e :: t). split; [reflexivity|]. split; [reflexivity|]. intros [|j]; [reflexivity|]. cbn. destruct (nth_error t j); reflexivity.
  - destruct (IH i f) as (t' & E & L & N); [lia|]. rewrite E. exists (e :: t'). split; [reflexivity|]. split; [cbn; lia|]. intros [|j]; [reflexivity|]. cbn [nth_error]. rewrite N. reflexivity.
Qed.
Lemma xors_app a b : xors (a ++ b) = Z.lxor (xors a) (xors b).
Proof. unfold xors. induction a as [|x a IH]; cbn [app fold_right]; [now rewrite Z.lxor_0_l|]. rewrite IH, Z.lxor_assoc. reflexivity. Qed.
Lemma xors_perm a b : Permutation a b -> xors a = xors b.
Proof. unfold xors. induction 1; cbn [fold_right]; [reflexivity|congruence|rewrite <- !Z.lxor_assoc, (Z.lxor_comm y x); reflexivity|congruence]. Qed.
Lemma signs_app a b : signs (a ++ b) = signs a + signs b.
Proof. unfold signs. rewrite map_app. induction (map fst a) as [|x l IH]; cbn [app fold_right]; [reflexivity|]. rewrite IH. lia. Qed.
Lemma signs_perm a b : Permutation a b -> signs a = signs b.
Proof. unfold signs. intro H. apply (Permutation_map fst) in H. induction H; cbn [fold_right]; lia. Qed.
Lemma filter_perm {A} (f : A -> bool) a b : Permutation a b -> Permutation (filter f a) (filter f b).
Proof.
  induction 1 as [|x l l' H IH|x y l|l1 l2 l3 H1 IH1 H2 IH2]; cbn [filter]; [constructor|destruct (f x); [now constructor|assumption]| |eapply perm_trans; eassumption].
  destruct (f x), (f y); try apply Permutation_refl. apply perm_swap.
Qed.
Lemma filter_filter {A} (f g : A -> bool) l : filter f (filter g l) = filter (fun x => g x && f x) l.
Proof. induction l as [|x l IH]; [reflexivity|]. cbn [filter]. destruct (g x); cbn [filter andb]; [destruct (f x); rewrite IH; reflexivity|exact IH]. Qed.

Lemma signs_one s k : signs [(s, k)] = s.
Proof. unfold signs. cbn. lia. Qed.
Lemma xors_one k : xors [k] = k.
Proof. unfold xors. cbn [fold_right]. apply Z.lxor_0_r. Qed.
Lemma xors_two k : xors [k; k] = 0.
Proof. unfold xors. cbn [fold_right]. rewrite Z.lxor_0_r. apply Z.lxor_nilpotent. Qed.
Definition prod_eq_dec_Z (a b : Z * Z) : {a = b} + {a <> b}.
Proof. decide equality; apply Z.eq_dec. Defined.
Section P.
Variable mmh : Z -> bytes -> Z.
Notation update := (update mmh).
Notation holds := (holds mmh).

Lemma falls_iff b k j : falls_inb mmh b k j = true <-> falls_in mmh b k j.
Proof.
  unfold falls_inb, falls_in. rewrite existsb_exists. split.
  - intros (i & Hi & E). exists i. split; [cbn in Hi; lia|lia].
  - intros (i & Hi & ->). exists i. split; [cbn; lia|lia].
Qed.
Lemma update_ok b t s k : sized b t -> exists t', update t s k = Ok t' /\ sized b t' /\
  forall j, nth_error t' j = option_map (fun e => if falls_inb mmh b k (Z.of_nat j) then change mmh s k e else e) (nth_error t j).
Proof.
  intros [Hb Hl]. assert (B : zlen t / 3 = b) by (rewrite Hl, Z.mul_comm; apply Z.div_mul; lia).
  assert (Hm : forall i, 0 <= murmur mmh i k mod b < b) by (intro; apply Z.mod_pos_bound; lia).
  assert (S1 : forall i t0, length t0 = length t -> 0 <= i < 3 -> exists t', update1 mmh t0 s k i = Ok t' /\ length t' = length t /\
     forall j, nth_error t' j = option_map (fun e => if Z.of_nat j =? i * b + murmur mmh i k mod b then change mmh s k e else e) (nth_error t0 j)).
  { intros i t0 L Hi. unfold update1, N_HASH. assert (Lz : zlen t0 = zlen t) by (unfold zlen; lia). rewrite Lz, B. replace (b =? 0) with false by lia.
    pose proof (Hm i) as M. destruct (modify_ok t0 (Z.to_nat (i * b + murmur mmh i k mod b)) (change mmh s k)) as (t' & E & L' & N); [unfold zlen in *; nia|].
    exists t'. split; [exact E|]. split; [lia|]. intro j. rewrite N. destruct (nth_error t0 j); [|reflexivity]. cbn [option_map]. f_equal.
    replace (j =? Z.to_nat (i * b + murmur mmh i k mod b))%nat with (Z.of_nat j =? i * b + murmur mmh i k mod b); [reflexivity|].
    destruct (Nat.eqb_spec j (Z.to_nat (i * b + murmur mmh i k mod b))); nia. }
  unfold IbltModel.update. destruct (S1 0 t eq_refl) as (t1 & E1 & L1 & N1); [lia|]. rewrite E1. cbn [rbind]. destruct (S1 1 t1 L1) as (t2 & E2 & L2 & N2); [lia|]. rewrite E2. cbn [rbind].
  destruct (S1 2 t2 L2) as (t3 & E3 & L3 & N3); [lia|]. rewrite E3. exists t3. split; [reflexivity|]. split; [split; [exact Hb|unfold zlen in *; lia]|].
  intro j. rewrite N3, N2, N1. destruct (nth_error t j) as [e|]; [|reflexivity]. cbn [option_map]. f_equal. unfold falls_inb. cbn [existsb].
  pose proof (Hm 0). pose proof (Hm 1). pose proof (Hm 2).
  destruct (Z.of_nat j =? 0 * b + murmur mmh 0 k mod b) eqn:F0; destruct (Z.of_nat j =? 1 * b + murmur mmh 1 k mod b) eqn:F1; destruct (Z.of_nat j =? 2 * b + murmur mmh 2 k mod b) eqn:F2; cbn [orb]; try reflexivity; exfalso; lia.
Qed.
Lemma sized_nth b t j e : sized b t -> nth_error t j = Some e -> Z.of_nat j < 3 * b.
Proof. intros [_ L] H. assert (j < length t)%nat by (apply nth_error_Some; congruence). unfold zlen in L. lia. Qed.
Lemma holds_perm b t l l' : Permutation l l' -> holds b t l -> holds b t l'.
Proof.
  intros H [S N]. split; [exact S|]. intros j e Hj. cbn zeta. specialize (N j e Hj). cbn zeta in N. destruct N as (-> & -> & ->).
  pose proof (filter_perm (fun x => falls_inb mmh b (snd x) (Z.of_nat j)) l l' H) as P. split; [now apply signs_perm|]. split; apply xors_perm; apply Permutation_map; exact P.
Qed.
Lemma holds_unique b t t' l : holds b t l -> holds b t' l -> t = t'.
Proof.
  intros [[_ S] N] [[_ S'] N']. apply nth_ext_eq. intro j. assert (L : length t = length t') by (unfold zlen in *; lia).
  destruct (nth_error t j) as [e|] eqn:E, (nth_error t' j) as [e'|] eqn:E'.
  - destruct (N j e E) as (A & B & C), (N' j e' E') as (A' & B' & C'). destruct e, e'. cbn in *. congruence.
  - apply nth_error_None in E'. assert (j < length t)%nat by (apply nth_error_Some; congruence). lia.
  - apply nth_error_None in E. assert (j < length t')%nat by (apply nth_error_Some; congruence). lia.
  - reflexivity.
Qed.
Lemma holds_update b t l s k : holds b t l -> exists t', update t s k = Ok t' /\ holds b t' (l ++ [(s, k)]).
Proof.
  intros [S N]. destruct (update_ok b t s k S) as (t' & E & S' & N'). exists t'. split; [exact E|]. split; [exact S'|]. intros j e' Hj. cbn zeta. rewrite N' in Hj.
  destruct (nth_error t j) as [e|] eqn:Ee; [|discriminate]. cbn [option_map] in Hj. injection Hj as <-. destruct (N j e Ee) as (A & B & C). rewrite filter_app. cbn [filter snd].
  destruct (falls_inb mmh b k (Z.of_nat j)).
  - rewrite signs_app, !map_app, !xors_app. unfold change. cbn [e_count e_keySum e_keyCheck map snd fst]. rewrite A, B, C, signs_one, !xors_one. auto.
  - rewrite app_nil_r. auto.
Qed.
Lemma holds_run b : forall ops t l, holds b t l -> exists t', run mmh t ops = Ok t' /\ holds b t' (l ++ ops).
Proof.
  induction ops as [|[s k] ops IH]; intros t l H; cbn [run]; [exists t; rewrite app_nil_r; auto|].
  destruct (holds_update b t l s k H) as (t1 & E & H1). rewrite E. cbn [rbind]. destruct (IH t1 _ H1) as (t' & E' & H'). exists t'. split; [exact E'|]. rewrite <- app_assoc in H'. exact H'.
Qed.
Lemma nth_repeat {A} (x : A) n j e : nth_error (repeat x n) j = Some e -> e = x.
Proof. revert j. induction n; intros [|j] H; cbn in H; try discriminate; [congruence|eauto]. Qed.
Lemma zlen_repeat {A} (x : A) n : 0 <= n -> zlen (repeat x (Z.to_nat n)) = n.
Proof. intro. unfold zlen. rewrite repeat_length. lia. Qed.
Definition per_hash (n : Z) : Z := (n + n / 2 + 2) / 3.
Lemma new_sized n : 0 < n -> sized (per_hash n) (new n) /\ new n = repeat e_new (Z.to_nat (3 * per_hash n)).
Proof.
  intro Hn. unfold new, N_HASH, per_hash. set (m := n + n / 2). assert (Hm : 1 <= m) by (assert (0 <= n / 2) by (apply Z.div_pos; lia); lia).
  pose proof (Z.div_mod (m + 2) 3 ltac:(lia)) as Q. pose proof (Z.mod_pos_bound (m + 2) 3 ltac:(lia)) as B.
  assert (E : (if m mod 3 =? 0 then m else m + (3 - m mod 3)) = 3 * ((m + 2) / 3)).
  { pose proof (Z.div_mod m 3 ltac:(lia)) as Qm. pose proof (Z.mod_pos_bound m 3 ltac:(lia)) as Bm. destruct (m mod 3 =? 0) eqn:X; lia. }
  rewrite E. assert (0 < (m + 2) / 3) by lia. split; [|reflexivity]. split; [lia|]. rewrite zlen_repeat; lia.
Qed.
Lemma holds_new b : 0 < b -> holds b (repeat e_new (Z.to_nat (3 * b))) [].
Proof.
  intro Hb. split; [split; [exact Hb|rewrite zlen_repeat; lia]|]. intros j e H. apply nth_repeat in H. subst e. cbn. auto.
Qed.
Lemma map2_nth {A B C} (f : A -> B -> C) : forall a b j, length a = length b -> nth_error (map2 f a b) j = match nth_error a j, nth_error b j with Some x, Some y => Some (f x y) | _, _ => None end.
Proof. induction a as [|x a IH]; intros [|y b] [|j] H; try discriminate; try reflexivity. cbn. apply IH. cbn in H. lia. Qed.
Lemma map2_len {A B C} (f : A -> B -> C) : forall a b, length a = length b -> length (map2 f a b) = length a.
Proof. induction a as [|x a IH]; intros [|y b] H; try discriminate; [reflexivity|]. cbn. f_equal. apply IH. cbn in H. lia. Qed.
Definition negate (l : list (Z * Z)) : list (Z * Z) := map (fun x => (- fst x, snd x)) l.
Lemma filter_negate f l : filter (fun x => f (snd x)) (negate l) = negate (filter (fun x => f (snd x)) l).
Proof. unfold negate. induction l as [|x l IH]; [reflexivity|]. cbn [map filter snd]. destruct (f (snd x)); cbn [map]; rewrite IH; reflexivity. Qed.
Lemma signs_negate l : signs (negate l) = - signs l.
Proof. unfold signs, negate. rewrite map_map. induction l as [|x l IH]; [reflexivity|]. cbn [map fold_right fst] in *. lia. Qed.
Lemma holds_diff b t t' l l' : holds b t l -> holds b t' l' -> exists d, difference t t' = Ok d /\ holds b d (l ++ negate l').
Proof.
  intros [[Hb S] N] [[_ S'] N']. unfold difference. rewrite S, S', Z.eqb_refl. cbn [negb]. eexists. split; [reflexivity|].
  assert (L : length t = length t') by (unfold zlen in *; lia).
  split; [split; [exact Hb|unfold zlen in *; rewrite map2_len by exact L; exact S]|].
  intros j e Hj. rewrite map2_nth in Hj by exact L. destruct (nth_error t j) as [x|] eqn:X; [|discriminate]. destruct (nth_error t' j) as [y|] eqn:Y; [|discriminate]. injection Hj as <-.
  destruct (N j x X) as (A & B & C), (N' j y Y) as (A' & B' & C'). cbn zeta. rewrite filter_app, (filter_negate (fun k => falls_inb mmh b k (Z.of_nat j))), signs_app, !map_app, !xors_app, signs_negate.
  unfold e_diff. cbn [e_count e_keySum e_keyCheck]. rewrite A, B, C, A', B', C'. unfold negate. rewrite !map_map. cbn [snd]. split; [lia|auto].
Qed.
(** A key and its opposite cancel. *)
Lemma holds_cancel b t l s k : holds b t (l ++ [(s, k); (- s, k)]) -> holds b t l.
Proof.
  intros [S N]. split; [exact S|]. intros j e Hj. destruct (N j e Hj) as (A & B & C). cbn zeta. rewrite A, B, C, !filter_app. cbn [filter snd].
  destruct (falls_inb mmh b k (Z.of_nat j)); [|rewrite app_nil_r; auto]. rewrite signs_app, !map_app, !xors_app. cbn [map fst snd]. rewrite !xors_two, !Z.lxor_0_r. unfold signs at 2. cbn [map fst fold_right].
  split; [lia|auto].
Qed.

(** ** listEntries *)
Section List_.
Variable D : list (Z * Z).
Hypothesis HD : NoDup D.
Hypothesis HC : no_collision mmh D.
Variable b : Z.
(** [f] tells what remains to be found. *)
Definition state (f : Z * Z -> bool) (t : table) (pos neg : list Z) : Prop :=
  holds b t (filter f D) /\
  (forall k, In k pos <-> In (1, k) D /\ f (1, k) = false) /\ (forall k, In k neg <-> In (-1, k) D /\ f (-1, k) = false).
Hypothesis HS : Forall (fun x => fst x = 1 \/ fst x = -1) D.
Definition less (x : Z * Z) (f : Z * Z -> bool) (y : Z * Z) : bool := f y && negb ((fst y =? fst x) && (snd y =? snd x)).
Lemma less_x x f : less x f x = false.
Proof. unfold less. rewrite !Z.eqb_refl. cbn. apply andb_false_r. Qed.
Lemma less_y x f y : y <> x -> less x f y = f y.
Proof.
  intro H. unfold less. destruct ((fst y =? fst x) && (snd y =? snd x)) eqn:E; [|cbn [negb]; apply andb_true_r].
  exfalso. apply H. apply andb_prop in E. destruct E. destruct x, y. cbn in *. f_equal; lia.
Qed.
Lemma filter_less x f l : NoDup l -> In x l -> f x = true -> Permutation (filter f l) (x :: filter (less x f) l).
Proof.
  induction 1 as [|y l Hy Hn IH]; intros Hx Hf; [contradiction|]. cbn [filter]. destruct Hx as [->|Hx].
  - rewrite Hf, less_x. constructor. rewrite (filter_ext_in f (less x f)); [apply Permutation_refl|]. intros z Hz. symmetry. apply less_y. congruence.
  - rewrite less_y by congruence. destruct (f y); [|now apply IH]. eapply perm_trans; [apply perm_skip, IH; assumption|apply perm_swap].
Qed.
Lemma set_add_in x l y : In y (set_add x l) <-> y = x \/ In y l.
Proof.
  unfold set_add. destruct (existsb (Z.eqb x) l) eqn:E.
  - apply existsb_exists in E. destruct E as (z & Hz & Ez). assert (x = z) by lia. subst z. split; [auto|]. intros [->|H]; auto.
  - rewrite in_app_iff. cbn [In]. intuition.
Qed.
Lemma pure_one f t pos neg j e : state f t pos neg -> nth_error t j = Some e -> isPure mmh e = true ->
  exists x, In x D /\ f x = true /\ e_count e = fst x /\ e_keySum e = snd x /\ falls_inb mmh b (snd x) (Z.of_nat j) = true /\
    forall y, In y D -> f y = true -> falls_inb mmh b (snd y) (Z.of_nat j) = true -> y = x.
Proof.
  intros [[S N] _] Hj Hp. destruct (N j e Hj) as (A & B & C). rewrite filter_filter in A, B, C. set (g := fun x => f x && falls_inb mmh b (snd x) (Z.of_nat j)) in *.
  unfold isPure, N_HASHCHECK in Hp. destruct ((e_count e =? 1) || (e_count e =? -1)) eqn:E1; [|discriminate]. destruct (HC g) as [H _].
  destruct H as (x & Hx); [rewrite <- A; lia|rewrite <- B, <- C; unfold check; lia|].
  exists x. assert (Hi : In x (filter g D)) by (rewrite Hx; now left). apply filter_In in Hi. destruct Hi as [Hi Hg]. apply andb_prop in Hg. split; [exact Hi|]. split; [apply Hg|].
  assert (Al : forall y, In y D -> f y = true -> falls_inb mmh b (snd y) (Z.of_nat j) = true -> y = x).
  { intros y Y1 Y2 Y3. assert (Hy : In y (filter g D)) by (apply filter_In; unfold g; rewrite Y2, Y3; auto). rewrite Hx in Hy. destruct Hy as [<-|[]]. reflexivity. }
  rewrite Hx in A, B. unfold signs, xors in A, B. cbn [map fold_right] in A, B. rewrite Z.lxor_0_r in B. split; [lia|]. split; [exact B|]. split; [apply Hg|exact Al].
Qed.
Lemma peel_one f t pos neg x : state f t pos neg -> In x D -> f x = true -> exists t', update t (- fst x) (snd x) = Ok t' /\ sized b t' /\
  state (less x f) t' (if fst x =? 1 then set_add (snd x) pos else pos) (if fst x =? 1 then neg else set_add (snd x) neg).
Proof.
  intros (Hh & Hp & Hn) Hx Hf. destruct (holds_update b t _ (- fst x) (snd x) Hh) as (t' & E & H'). exists t'. split; [exact E|]. split; [apply H'|].
  assert (G : holds b t' (filter (less x f) D)).
  { apply (holds_cancel b t' _ (fst x) (snd x)). eapply holds_perm; [|exact H']. rewrite <- surjective_pairing. change [x; (- fst x, snd x)] with ([x] ++ [(- fst x, snd x)]). rewrite app_assoc. apply Permutation_app_tail.
    eapply perm_trans; [apply filter_less; eassumption|]. apply Permutation_cons_append. }
  split; [exact G|]. rewrite Forall_forall in HS. destruct (HS x Hx) as [Hs|Hs]; rewrite Hs; cbn [Z.eqb Pos.eqb]; split; intro k.
  - rewrite set_add_in, Hp. split.
    + intros [->|[A B]]; [split; [rewrite <- Hs, <- surjective_pairing; exact Hx|replace (1, snd x) with x by (rewrite <- Hs; apply surjective_pairing); apply less_x]|]. split; [exact A|]. unfold less. rewrite B. reflexivity.
    + intros [A B]. destruct (Z.eq_dec k (snd x)) as [->|Hk]; [auto|]. right. split; [exact A|]. rewrite less_y in B; [exact B|]. intro X. apply Hk. rewrite <- X. reflexivity.
  - rewrite Hn. assert (X : (-1, k) <> x) by (intro X; rewrite <- X in Hs; discriminate). rewrite less_y by exact X. tauto.
  - rewrite Hp. assert (X : (1, k) <> x) by (intro X; rewrite <- X in Hs; discriminate). rewrite less_y by exact X. tauto.
  - rewrite set_add_in, Hn. split.
    + intros [->|[A B]]; [split; [rewrite <- Hs, <- surjective_pairing; exact Hx|replace (-1, snd x) with x by (rewrite <- Hs; apply surjective_pairing); apply less_x]|]. split; [exact A|]. unfold less. rewrite B. reflexivity.
    + intros [A B]. destruct (Z.eq_dec k (snd x)) as [->|Hk]; [auto|]. right. split; [exact A|]. rewrite less_y in B; [exact B|]. intro X. apply Hk. rewrite <- X. reflexivity.
Qed.
Lemma pass_mono : forall js p p', pass mmh js p = Ok p' -> p_erased p <= p_erased p' /\ (p_erased p' = p_erased p -> p' = p).
Proof.
  induction js as [|j js IH]; intros p p'; cbn [pass]; [intro E; injection E as <-; split; [lia|reflexivity]|]. destruct (nth_error (p_table p) j) as [e|]; [|discriminate].
  destruct (isPure mmh e); [|apply IH]. destruct (update _ _ _) as [t|]; [|discriminate]. cbn [rbind]. intro E. apply IH in E. cbn [p_erased] in E. split; [lia|]. intro Q. exfalso. lia.
Qed.
Lemma IHsame js p p' : pass mmh js p = Ok p' -> p_erased p' = p_erased p -> p' = p.
Proof. intros E Q. now apply (pass_mono js). Qed.
Lemma less_split x f l : NoDup l -> In x l -> f x = true -> exists l1 l2, filter f l = l1 ++ x :: l2 /\ filter (less x f) l = l1 ++ l2.
Proof.
  induction 1 as [|y l Hy Hn IH]; intros Hx Hf; [contradiction|]. cbn [filter]. destruct Hx as [->|Hx].
  - rewrite Hf, less_x. exists [], (filter f l). split; [reflexivity|]. cbn. apply filter_ext_in. intros z Hz. apply less_y. congruence.
  - rewrite less_y by congruence. destruct (IH Hx Hf) as (l1 & l2 & E1 & E2). destruct (f y); [exists (y :: l1), l2; rewrite E1, E2; auto|eauto].
Qed.
Lemma pass_ok : forall js f p, state f (p_table p) (p_pos p) (p_neg p) -> Forall (fun j => Z.of_nat j < 3 * b) js ->
  exists p' f', pass mmh js p = Ok p' /\ state f' (p_table p') (p_pos p') (p_neg p') /\ p_erased p <= p_erased p' /\
    zlen (filter f' D) + p_erased p' = zlen (filter f D) + p_erased p /\
    (peelable mmh b (filter f' D) -> peelable mmh b (filter f D)) /\
    (p_erased p' = p_erased p -> forall j e, In j js -> nth_error (p_table p') j = Some e -> isPure mmh e = false).
Proof.
  induction js as [|j js IH]; intros f p H F; cbn [pass]; [exists p, f; split; [reflexivity|]; split; [exact H|]; split; [lia|]; split; [lia|]; split; [tauto|intros _ j e []]|].
  inversion F as [|? ? Fj Fjs]; subst. pose proof H as [[Sz _] _]. destruct Sz as [_ Sz].
  destruct (nth_error (p_table p) j) as [e|] eqn:E; [|apply nth_error_None in E; unfold zlen in Sz; lia].
  destruct (isPure mmh e) eqn:Hp.
  2:{ destruct (IH f p H Fjs) as (p' & f' & Ep & Hs & Hl & Hz & Hpe & Hnp). exists p', f'. split; [exact Ep|]. split; [exact Hs|]. split; [exact Hl|]. split; [exact Hz|]. split; [exact Hpe|].
      intros Q j' e' [<-|Hj'] He'; [|now apply (Hnp Q j')]. pose proof (IHsame js p p' Ep Q) as Es. rewrite Es in He'. congruence. }
  destruct (pure_one _ _ _ _ _ _ H E Hp) as (x & Hx & Hf & Ec & Ek & Fx & Al). rewrite Ec, Ek. destruct (peel_one _ _ _ _ _ H Hx Hf) as (t' & Eu & _ & H'). rewrite Eu. cbn [rbind].
  destruct (IH (less x f) (Peel t' (if fst x =? 1 then set_add (snd x) (p_pos p) else p_pos p) (if fst x =? 1 then p_neg p else set_add (snd x) (p_neg p)) (p_erased p + 1)) H' Fjs) as (p' & f' & Ep & Hs & Hl & Hz & Hpe & _).
  exists p', f'. split; [exact Ep|]. split; [exact Hs|]. cbn [p_erased] in *. pose proof (Permutation_length (filter_less x f D HD Hx Hf)) as P. cbn [length] in P.
  split; [lia|]. split; [unfold zlen in *; lia|]. split; [|lia]. intro Q. apply Hpe in Q. destruct (less_split x f D HD Hx Hf) as (l1 & l2 & E1 & E2). rewrite E1. rewrite E2 in Q.
  eapply Peel_step; [apply falls_iff; exact Fx| |exact Q]. intros y Hy Fy. assert (Hy' : In y (filter (less x f) D)) by (rewrite E2; exact Hy). apply filter_In in Hy'. destruct Hy' as [Y1 Y2].
  assert (f y = true) by (unfold less in Y2; now apply andb_prop in Y2). assert (y = x) by (apply Al; [exact Y1|assumption|now apply falls_iff]). subst y. rewrite less_x in Y2. discriminate.
Qed.
Lemma seq_small t : sized b t -> Forall (fun j => Z.of_nat j < 3 * b) (seq 0 (length t)).
Proof. intros [_ S]. apply Forall_forall. intros j Hj. apply in_seq in Hj. unfold zlen in S. lia. Qed.
Lemma rounds_ok : forall fuel f t pos neg, state f t pos neg -> 
  (rounds mmh fuel t pos neg = Err OutOfFuel /\ (fuel <= length (filter f D))%nat) \/
  exists p f', rounds mmh fuel t pos neg = Ok p /\ state f' (p_table p) (p_pos p) (p_neg p) /\
    (peelable mmh b (filter f' D) -> peelable mmh b (filter f D)) /\ (forall j e, nth_error (p_table p) j = Some e -> isPure mmh e = false).
Proof.
  induction fuel as [|fuel IH]; intros f t pos neg H; cbn [rounds]; [left; split; [reflexivity|lia]|].
  destruct (pass_ok (seq 0 (length t)) f (Peel t pos neg 0) H) as (p & f' & E & H' & Hle & Hz & Hpe & Hnp); [apply seq_small, H|]. rewrite E. cbn [rbind p_erased] in *.
  destruct (0 <? p_erased p) eqn:X.
  2:{ right. exists p, f'. split; [reflexivity|]. split; [exact H'|]. split; [exact Hpe|]. intros j e Hj. apply (Hnp ltac:(lia) j e); [|exact Hj].
      assert (Q : p = Peel t pos neg 0) by (apply (IHsame _ _ _ E); cbn; lia). subst p. cbn [p_table] in Hj. apply in_seq. split; [lia|]. apply nth_error_Some. cbn. congruence. }
  destruct (IH f' _ _ _ H') as [[R L]|(p2 & f2 & R1 & R2 & R3 & R4)]; [|right; exists p2, f2; split; [exact R1|]; split; [exact R2|]; split; [tauto|exact R4]]. left. split; [exact R|]. unfold zlen in Hz. lia.
Qed.
Lemma empty_done f t pos neg : state f t pos neg -> forallb isEmpty t = true -> forall x, In x D -> f x = false.
Proof.
  intros [[[Hb S] N] _] He x Hx. destruct (f x) eqn:Hf; [|reflexivity]. exfalso.
  assert (Hm : 0 <= murmur mmh 0 (snd x) mod b < b) by (apply Z.mod_pos_bound; lia). set (j := Z.to_nat (murmur mmh 0 (snd x) mod b)).
  destruct (nth_error t j) as [e|] eqn:E; [|apply nth_error_None in E; unfold zlen in S; lia].
  destruct (N j e E) as (A & B & C). rewrite forallb_forall in He. specialize (He e (nth_error_In _ _ E)). unfold isEmpty in He. apply andb_prop in He. destruct He as [He H3]. apply andb_prop in He. destruct He as [H1 H2].
  rewrite filter_filter in A, B, C. edestruct (HC (fun x => f x && falls_inb mmh b (snd x) (Z.of_nat j))) as [_ K]. cbn zeta in K.
  assert (Hi : In x (filter (fun x => f x && falls_inb mmh b (snd x) (Z.of_nat j)) D)).
  { apply filter_In. split; [exact Hx|]. rewrite Hf. cbn [andb]. apply falls_iff. exists 0. split; [lia|]. unfold j. lia. }
  rewrite K in Hi by (try rewrite <- A; try rewrite <- B; try rewrite <- C; lia). contradiction.
Qed.
Lemma peelable_sub l : peelable mmh b l -> forall r, (forall x, In x r -> In x l) -> r <> [] -> exists x j, In x r /\ falls_in mmh b (snd x) j /\ forall y, In y r -> falls_in mmh b (snd y) j -> y = x.
Proof.
  induction 1 as [|l1 x l2 j Hx Ha Hp IH]; intros r Hr Hne.
  - destruct r as [|y r]; [congruence|]. destruct (Hr y); now left.
  - destruct (in_dec (prod_eq_dec_Z) x r) as [Hi|Hi].
    + exists x, j. split; [exact Hi|]. split; [exact Hx|]. intros y Hy Fy. apply Hr in Hy. rewrite in_app_iff in Hy. cbn [In] in Hy. destruct Hy as [Hy|[Hy|Hy]]; [|congruence|]; exfalso; (eapply Ha; [|exact Fy]); apply in_or_app; auto.
    + apply IH; [|exact Hne]. intros y Hy. pose proof (Hr y Hy) as K. rewrite in_app_iff in *. cbn [In] in K. destruct K as [K|[K|K]]; [auto|subst; contradiction|auto].
Qed.
(** A table without pure entry that holds a part of a peelable set is empty. *)
Lemma stuck_empty f t pos neg : state f t pos neg -> peelable mmh b D -> (forall j e, nth_error t j = Some e -> isPure mmh e = false) -> forallb isEmpty t = true.
Proof.
  intros [[[Hb S] N] _] Hp Hn. assert (E : filter f D = []).
  { destruct (filter f D) as [|y r] eqn:Er; [reflexivity|exfalso]. destruct (peelable_sub D Hp (filter f D)) as (x & j & Hx & Fx & Al); [intros z Hz; now apply filter_In in Hz|congruence|].
    destruct Fx as (i & Hi & Ej). pose proof (Z.mod_pos_bound (murmur mmh i (snd x)) b Hb) as M. assert (Hj : 0 <= j < 3 * b) by nia.
    destruct (nth_error t (Z.to_nat j)) as [e|] eqn:Ee; [|apply nth_error_None in Ee; unfold zlen in S; lia]. destruct (N _ _ Ee) as (A & B & C). rewrite Z2Nat.id in A, B, C by lia.
    assert (F : filter (fun x => falls_inb mmh b (snd x) j) (filter f D) = [x]).
    { assert (Nd : NoDup (filter (fun x => falls_inb mmh b (snd x) j) (filter f D))) by (apply NoDup_filter, NoDup_filter, HD).
      assert (In_ : forall z, In z (filter (fun x => falls_inb mmh b (snd x) j) (filter f D)) <-> z = x).
      { intro z. rewrite filter_In, falls_iff. split; [intros [Z1 Z2]; now apply Al|]. intros ->. split; [exact Hx|]. exists i. auto. }
      destruct (filter _ (filter f D)) as [|z [|z' l]].
      - destruct (proj2 (In_ x)); reflexivity.
      - f_equal. apply In_. now left.
      - exfalso. assert (z = x) by (apply In_; now left). assert (z' = x) by (apply In_; right; now left). subst. inversion Nd as [|? ? X]; subst. apply X. now left. }
    rewrite Er in F. rewrite F in A, B, C. unfold signs, xors in A, B, C. cbn [map fold_right] in A, B, C. rewrite Z.lxor_0_r in B, C. specialize (Hn _ _ Ee). unfold isPure in Hn. rewrite A, B, C, Z.add_0_r in Hn.
    rewrite Forall_forall in HS. assert (Hd : In x D) by (now apply filter_In in Hx). destruct (HS x Hd) as [Q|Q]; rewrite Q in Hn; cbn [Z.eqb Pos.eqb orb] in Hn; unfold check, N_HASHCHECK in Hn; rewrite Z.eqb_refl in Hn; discriminate. }
  rewrite E in N. apply forallb_forall. intros e He. apply In_nth_error in He. destruct He as (j & Hj). destruct (N j e Hj) as (A & B & C). cbn in A, B, C. unfold isEmpty. rewrite A, B, C. reflexivity.
Qed.
End List_.
End P.
