(** * Proofs about the compiler of NDN regular expressions *)
From Verif Require Import Base BaseLemmas NameModel UriModel BlobModel RegexModel RegexSpec RegexProofs.
From Coq Require Import Arith.
Local Open Scope res_scope.

(** ** Brackets *)
Lemma count_cons : forall c x t, count c (x :: t) = ((if Z.eqb x c then 1 else 0) + count c t)%nat.
Proof. intros c x t. unfold count. cbn [count_occ]. destruct (Z.eq_dec x c), (Z.eqb_spec x c); try congruence; lia. Qed.
Lemma count_app : forall c a b, count c (a ++ b) = (count c a + count c b)%nat.
Proof. intros. apply count_occ_app. Qed.
(** [d] brackets are open before [t], one of them is closed by the [r] after it *)
Lemma sub_pattern_ok : forall l r t d rest, l <> r -> (count l t + d = count r t)%nat -> (forall p s, t = p ++ s -> (count r p <= count l p + d)%nat) ->
  sub_pattern l r (S d) (t ++ r :: rest) = Ok (t ++ [r], rest).
Proof.
  intros l r. induction t as [|x t IH]; intros d rest N Ht Hp; cbn [app sub_pattern].
  - assert (d = 0)%nat by (cbn in Ht; lia). subst d. destruct (Z.eqb_spec r l); [congruence|]. rewrite Z.eqb_refl. reflexivity.
  - rewrite !count_cons in Ht. assert (Hx : (count r [x] <= count l [x] + d)%nat) by (apply (Hp [x] t); reflexivity). rewrite !count_cons in Hx. cbn [count count_occ] in Hx.
    assert (Hp' : forall p s, t = p ++ s -> (count r (x :: p) <= count l (x :: p) + d)%nat) by (intros p s ->; apply (Hp (x :: p) s); reflexivity).
    destruct (Z.eqb_spec x l) as [->|Nl].
    + destruct (Z.eqb_spec l r) as [|_]; [congruence|]. rewrite (IH (S d)); [reflexivity|exact N|lia|]. intros p s E. specialize (Hp' p s E). rewrite !count_cons, Z.eqb_refl in Hp'. destruct (Z.eqb_spec l r); [congruence|]. lia.
    + destruct (Z.eqb_spec x r) as [->|Nr].
      * cbn [Nat.pred]. destruct d as [|d]; [lia|]. rewrite (IH d); [reflexivity|exact N|lia|]. intros p s E. specialize (Hp' p s E). rewrite !count_cons, Z.eqb_refl in Hp'. destruct (Z.eqb_spec r l); [congruence|]. lia.
      * rewrite (IH d); [reflexivity|exact N|lia|]. intros p s E. specialize (Hp' p s E). rewrite !count_cons in Hp'. destruct (Z.eqb_spec x l), (Z.eqb_spec x r); try congruence. lia.
Qed.
Lemma sub_pattern_bal : forall l r t rest, l <> r -> balanced l r t -> sub_pattern l r 1 (t ++ r :: rest) = Ok (t ++ [r], rest).
Proof. intros l r t rest N [B1 B2]. apply sub_pattern_ok; [exact N|lia|]. intros p s E. specialize (B2 p s E). lia. Qed.
Lemma sub_pattern_inv : forall l r t d a b, l <> r -> sub_pattern l r (S d) t = Ok (a, b) ->
  exists t', a = t' ++ [r] /\ t = t' ++ r :: b /\ (count l t' + d = count r t')%nat /\ (forall p s, t' = p ++ s -> (count r p <= count l p + d)%nat).
Proof.
  intros l r. induction t as [|x t IH]; intros d a b N; cbn [sub_pattern]; [discriminate|]. 
  destruct (Z.eqb_spec x l) as [->|Nl].
  - destruct (Z.eqb_spec l r) as [|_]; [congruence|]. destruct (sub_pattern l r (S (S d)) t) as [[a' b']|] eqn:E; [|discriminate]. intros [= <- <-]. destruct (IH _ _ _ N E) as (t' & -> & -> & C & P). exists (l :: t'). cbn [fst snd app]. split; [reflexivity|]. split; [reflexivity|]. split; [rewrite !count_cons, Z.eqb_refl; destruct (Z.eqb_spec l r); [congruence|]; lia|].
    intros p s Ep. destruct p as [|y p]; [cbn; lia|]. injection Ep as <- Ep. specialize (P p s Ep). rewrite !count_cons, Z.eqb_refl. destruct (Z.eqb_spec l r); [congruence|]. lia.
  - destruct (Z.eqb_spec x r) as [->|Nr].
    + cbn [Nat.pred]. destruct d as [|d].
      * intros [= <- <-]. exists []. split; [reflexivity|]. split; [reflexivity|]. split; [reflexivity|]. intros p s Ep. symmetry in Ep. apply app_eq_nil in Ep. destruct Ep as [-> ->]. cbn. lia.
      * destruct (sub_pattern l r (S d) t) as [[a' b']|] eqn:E; [|discriminate]. intros [= <- <-]. destruct (IH _ _ _ N E) as (t' & -> & -> & C & P). exists (r :: t'). cbn [fst snd app]. split; [reflexivity|]. split; [reflexivity|]. split; [rewrite !count_cons, Z.eqb_refl; destruct (Z.eqb_spec r l); [congruence|]; lia|].
        intros p s Ep. destruct p as [|y p]; [cbn; lia|]. injection Ep as <- Ep. specialize (P p s Ep). rewrite !count_cons, Z.eqb_refl. destruct (Z.eqb_spec r l); [congruence|]. lia.
    + destruct (sub_pattern l r (S d) t) as [[a' b']|] eqn:E; [|discriminate]. intros [= <- <-]. destruct (IH _ _ _ N E) as (t' & -> & -> & C & P). exists (x :: t'). cbn [fst snd app]. split; [reflexivity|]. split; [reflexivity|]. split; [rewrite !count_cons; destruct (Z.eqb_spec x l), (Z.eqb_spec x r); try congruence; lia|].
      intros p s Ep. destruct p as [|y p]; [cbn; lia|]. injection Ep as <- Ep. specialize (P p s Ep). rewrite !count_cons. destruct (Z.eqb_spec x l), (Z.eqb_spec x r); try congruence; lia.
Qed.
Lemma sub_pattern_err : forall l r t d e, sub_pattern l r d t = Err e -> e = OtherError.
Proof.
  intros l r. induction t as [|x t IH]; intros d e; cbn [sub_pattern]; [congruence|]. destruct (if x =? r then _ else _) as [|n]; [discriminate|]. destruct (sub_pattern l r (S n) t) as [p|e'] eqn:E; cbn [rbind]; [discriminate|]. intros [= <-]. eapply IH. exact E.
Qed.

(** ** Repetitions *)
Definition starts (t : str) : Prop := t = [] \/ exists c t', t = c :: t' /\ (c = 40 \/ c = 60 \/ c = 91).
Lemma number_notin : forall a c, number a -> (c < 48 \/ 57 < c) -> ~ In c a.
Proof. intros a c [_ F] H I. rewrite Forall_forall in F. specialize (F _ I). lia. Qed.
Lemma to_brace_ok : forall a rest, ~ In 125 a -> to_brace (a ++ 125 :: rest) = Ok (a ++ [125], rest).
Proof.
  induction a as [|x a IH]; intros rest N; cbn [app to_brace]; [reflexivity|]. destruct (Z.eqb_spec x 125) as [->|_]; [exfalso; apply N; left; reflexivity|]. rewrite IH by (intros I; apply N; right; exact I). reflexivity.
Qed.
Lemma to_brace_inv : forall t a b, to_brace t = Ok (a, b) -> exists t', a = t' ++ [125] /\ t = t' ++ 125 :: b /\ ~ In 125 t'.
Proof.
  induction t as [|x t IH]; intros a b; cbn [to_brace]; [discriminate|]. destruct (Z.eqb_spec x 125) as [->|N].
  - intros [= <- <-]. exists []. split; [reflexivity|]. split; [reflexivity|intros []].
  - destruct (to_brace t) as [[a' b']|]; [|discriminate]. intros [= <- <-]. destruct (IH _ _ eq_refl) as (t' & -> & -> & N'). exists (x :: t'). split; [reflexivity|]. split; [reflexivity|]. intros [E|I]; [congruence|contradiction].
Qed.
Lemma to_brace_err : forall t e, to_brace t = Err e -> e = OtherError.
Proof. induction t as [|x t IH]; intros e; cbn [to_brace]; [congruence|]. destruct (x =? 125); [discriminate|]. destruct (to_brace t) as [p|e']; cbn [rbind]; [discriminate|]. intros [= <-]. apply IH. reflexivity. Qed.
Lemma q_text_brace : forall q, q_ok q -> q = QOne \/ q = QOpt \/ q = QPlus \/ q = QStar \/ exists a, q_text q = 123 :: a ++ [125] /\ ~ In 125 a /\ a <> [].
Proof.
  intros q H. destruct q; auto; right; right; right; right; cbn [q_text q_ok] in *.
  - destruct H as [H _]. exists a. split; [reflexivity|]. split; [apply number_notin; [exact H|lia]|apply H].
  - destruct H as [H _]. exists (a ++ [44]). rewrite <- app_assoc. split; [reflexivity|]. split; [|destruct a; discriminate]. intros I. apply in_app_or in I. destruct I as [I|[I|[]]]; [|lia]. eapply number_notin; [exact H| |exact I]. lia.
  - destruct H as [H _]. exists (44 :: b). split; [reflexivity|]. split; [|discriminate]. intros [I|I]; [lia|]. eapply number_notin; [exact H| |exact I]. lia.
  - destruct H as (H & H' & _). exists (a ++ 44 :: b). rewrite <- app_assoc. split; [reflexivity|]. split; [|destruct a; discriminate]. intros I. apply in_app_or in I. destruct I as [I|[I|I]]; [|lia|]; (eapply number_notin; [| |exact I]; [assumption|lia]).
Qed.
Lemma repetition_ok : forall q rest, q_ok q -> starts rest -> repetition (q_text q ++ rest) = Ok (q_text q, rest).
Proof.
  intros q rest H St. destruct (q_text_brace q H) as [->|[->|[->|[->|(a & E & N & _)]]]]; try reflexivity.
  - cbn [q_text app]. destruct St as [->|(c & t' & -> & Hc)]; [reflexivity|]. cbn [repetition]. destruct Hc as [-> |[-> | ->]]; reflexivity.
  - rewrite E. replace ((123 :: a ++ [125]) ++ rest) with ((123 :: a) ++ 125 :: rest) by (cbn [app]; rewrite <- app_assoc; reflexivity).
    cbn [repetition app]. cbn [Z.eqb Pos.eqb orb]. change (123 :: a ++ 125 :: rest) with ((123 :: a) ++ 125 :: rest). rewrite to_brace_ok; [reflexivity|]. intros [X|X]; [discriminate X|contradiction].
Qed.
Lemma repetition_inv : forall t a b, repetition t = Ok (a, b) -> t = a ++ b /\ (a = [] \/ a = [43] \/ a = [63] \/ a = [42] \/ exists a', a = 123 :: a' ++ [125] /\ ~ In 125 a').
Proof.
  intros [|c t] a b; cbn [repetition]; [intros [= <- <-]; auto|]. destruct ((c =? 43) || (c =? 63) || (c =? 42)) eqn:E.
  - intros [= <- <-]. split; [reflexivity|]. assert (X : c = 43 \/ c = 63 \/ c = 42) by lia. destruct X as [-> |[-> | ->]]; auto.
  - destruct (Z.eqb_spec c 123) as [->|N]; [|intros [= <- <-]; auto]. intros X. apply to_brace_inv in X. destruct X as (t' & -> & Et & Nt). destruct t' as [|x t']; [discriminate Et|]. injection Et as <- ->. split; [cbn [app]; rewrite <- app_assoc; reflexivity|]. right; right; right; right. exists t'. split; [reflexivity|]. intros I. apply Nt. right. exact I.
Qed.
Lemma repetition_err : forall t e, repetition t = Err e -> e = OtherError.
Proof. intros [|c t] e; cbn [repetition]; [discriminate|]. destruct ((c =? 43) || (c =? 63) || (c =? 42)); [discriminate|]. destruct (c =? 123); [apply to_brace_err|discriminate]. Qed.
Lemma digits_number : forall t, digits t = true <-> number t.
Proof.
  intros t. unfold digits, number. rewrite andb_true_iff, forallb_forall, Forall_forall. split; intros [A B]; split.
  - intros ->. discriminate A.
  - intros x I. specialize (B x I). unfold is_digit in B. lia.
  - destruct t; [congruence|]. rewrite zlen_cons. pose proof (zlen_nonneg _ t). lia.
  - intros x I. specialize (B x I). unfold is_digit. lia.
Qed.
Lemma int_decimal : forall t, int_digits t = decimal t.
Proof.
  intros t. unfold int_digits, decimal. generalize 0. induction t as [|c t IH]; intros n; [reflexivity|]. cbn [fold_left]. rewrite IH. f_equal. lia.
Qed.
Lemma find_none : forall t, ~ In 44 t -> find_idx 44 t = None.
Proof. induction t as [|x t IH]; intros N; [reflexivity|]. cbn [find_idx]. destruct (Z.eqb_spec x 44) as [->|_]; [exfalso; apply N; left; reflexivity|]. rewrite IH by (intros I; apply N; right; exact I). reflexivity. Qed.
Lemma find_comma : forall a b, ~ In 44 a -> find_idx 44 (a ++ 44 :: b) = Some (length a).
Proof. induction a as [|x a IH]; intros b N; cbn [app find_idx length]; [reflexivity|]. destruct (Z.eqb_spec x 44) as [->|_]; [exfalso; apply N; left; reflexivity|]. rewrite IH by (intros I; apply N; right; exact I). reflexivity. Qed.
Lemma find_inv : forall t i, find_idx 44 t = Some i -> t = firstn i t ++ 44 :: skipn (S i) t.
Proof.
  induction t as [|x t IH]; intros i; cbn [find_idx]; [discriminate|]. destruct (Z.eqb_spec x 44) as [->|_]; [intros [= <-]; reflexivity|]. destruct (find_idx 44 t) as [j|]; [|discriminate]. intros [= <-]. cbn [firstn app]. f_equal. apply (IH j eq_refl).
Qed.
Lemma digits_nil : digits [] = false.
Proof. reflexivity. Qed.
Lemma brace_shape : forall a, parseRepetition (123 :: a ++ [125]) =
      mm <-- (match find_idx 44 a with
              | Some i =>
                  let x := firstn i a in let y := skipn (S i) a in
                  if digits x && digits y then Ok (int_digits x, int_digits y)
                  else if (zlen x =? 0) && digits y then Ok (0, int_digits y)
                  else if digits x && (zlen y =? 0) then Ok (int_digits x, MAX_REPETITIONS)
                  else Err OtherError
              | None => if digits a then Ok (int_digits a, int_digits a) else Err OtherError
              end) ;;
      if (MAX_REPETITIONS <? fst mm) || (MAX_REPETITIONS <? snd mm) || (snd mm <? fst mm) then Err OtherError else Ok mm.
Proof.
  intros a. assert (E : parseRepetition (123 :: a ++ [125]) = match a ++ [125] with [] => parseRepetition [123] | t' => parseRepetition (123 :: t') end) by (destruct a; reflexivity).
  unfold parseRepetition at 1. destruct (a ++ [125]) as [|x t'] eqn:Ea; [destruct a; discriminate Ea|]. rewrite <- Ea. rewrite removelast_last. reflexivity.
Qed.
Lemma parse_ok : forall q, q_ok q -> parseRepetition (q_text q) = Ok (q_pair q).
Proof.
  intros q H. pose proof (q_pair_ok q H) as (Q1 & Q2 & Q3). destruct q; try reflexivity; cbn [q_text q_ok] in *.
  - destruct H as [Ha Hl]. rewrite brace_shape. rewrite (find_none a) by (apply number_notin; [exact Ha|lia]). replace (digits a) with true by (symmetry; apply digits_number; exact Ha). cbn [rbind]. rewrite int_decimal. cbn [fst snd]. unfold q_pair in *. cbn [q_min q_max fst snd] in *. unfold MAX_REPETITIONS. replace ((32767 <? decimal a) || (32767 <? decimal a) || (decimal a <? decimal a)) with false by lia. reflexivity.
  - destruct H as [Ha Hl]. replace (123 :: a ++ [44; 125]) with (123 :: (a ++ [44]) ++ [125]) by (rewrite <- app_assoc; reflexivity). rewrite brace_shape. rewrite (find_comma a []) by (apply number_notin; [exact Ha|lia]). cbv zeta.
    rewrite firstn_app, firstn_all, Nat.sub_diag. cbn [firstn]. rewrite app_nil_r. replace (skipn (S (length a)) (a ++ [44])) with (@nil Z) by (symmetry; apply skipn_all2; rewrite app_length; cbn; lia).
    replace (digits a) with true by (symmetry; apply digits_number; exact Ha). rewrite digits_nil, andb_false_r. cbn [andb zlen length Z.of_nat Z.eqb rbind fst snd]. rewrite andb_false_r. cbn [rbind fst snd]. rewrite int_decimal. unfold q_pair in *. cbn [q_min q_max fst snd] in *. unfold MAX_REPETITIONS. replace ((32767 <? decimal a) || (32767 <? 32767) || (32767 <? decimal a)) with false by lia. reflexivity.
  - destruct H as [Hb Hl]. change (123 :: 44 :: b ++ [125]) with (123 :: (44 :: b) ++ [125]). rewrite brace_shape. cbn [find_idx Z.eqb Pos.eqb]. cbv zeta. cbn [firstn skipn]. rewrite digits_nil. cbn [andb]. replace (digits b) with true by (symmetry; apply digits_number; exact Hb). cbn [zlen length Z.of_nat Z.eqb andb rbind fst snd]. rewrite int_decimal. unfold q_pair in *. cbn [q_min q_max fst snd] in *. unfold MAX_REPETITIONS. replace ((32767 <? 0) || (32767 <? decimal b) || (decimal b <? 0)) with false by lia. reflexivity.
  - destruct H as (Ha & Hb & Hl). replace (123 :: a ++ 44 :: b ++ [125]) with (123 :: (a ++ 44 :: b) ++ [125]) by (rewrite <- app_assoc; reflexivity). rewrite brace_shape. rewrite (find_comma a b) by (apply number_notin; [exact Ha|lia]). cbv zeta.
    rewrite firstn_app, firstn_all, Nat.sub_diag. cbn [firstn]. rewrite app_nil_r. replace (skipn (S (length a)) (a ++ 44 :: b)) with b by (replace (S (length a)) with (length a + 1)%nat by lia; rewrite skipn_app; rewrite skipn_all2 by lia; replace (length a + 1 - length a)%nat with 1%nat by lia; reflexivity).
    replace (digits a) with true by (symmetry; apply digits_number; exact Ha). replace (digits b) with true by (symmetry; apply digits_number; exact Hb). cbn [andb rbind fst snd]. rewrite !int_decimal. unfold q_pair in *. cbn [q_min q_max fst snd] in *. unfold MAX_REPETITIONS. replace ((32767 <? decimal a) || (32767 <? decimal b) || (decimal b <? decimal a)) with false by lia. reflexivity.
Qed.
Lemma parse_inv : forall t a b r, repetition t = Ok (a, b) -> parseRepetition a = Ok r -> exists q, q_ok q /\ a = q_text q /\ r = q_pair q.
Proof.
  intros t a b r Hr Hp. destruct (repetition_inv _ _ _ Hr) as [_ [->|[->|[->|[->|(x & -> & N)]]]]].
  - exists QOne. injection Hp as <-. split; [exact I|auto].
  - exists QPlus. injection Hp as <-. split; [exact I|auto].
  - exists QOpt. injection Hp as <-. split; [exact I|auto].
  - exists QStar. injection Hp as <-. split; [exact I|auto].
  - assert (G : exists q, q_ok q /\ 123 :: x ++ [125] = q_text q).
    { rewrite brace_shape in Hp. destruct (find_idx 44 x) as [i|] eqn:Ef.
      - apply find_inv in Ef. cbv zeta in Hp. set (u := firstn i x) in *. set (v := skipn (S i) x) in *. destruct (digits u && digits v) eqn:E1.
        + apply andb_true_iff in E1. destruct E1 as [Du Dv]. apply digits_number in Du. apply digits_number in Dv. cbn [rbind fst snd] in Hp. rewrite !int_decimal in Hp. unfold MAX_REPETITIONS in Hp. destruct ((32767 <? decimal u) || (32767 <? decimal v) || (decimal v <? decimal u)) eqn:E2; [discriminate Hp|].
          exists (QBetween u v). cbn [q_ok q_text]. split; [split; [exact Du|]; split; [exact Dv|lia]|]. rewrite Ef. rewrite <- app_assoc. reflexivity.
        + destruct ((zlen u =? 0) && digits v) eqn:E2.
          * apply andb_true_iff in E2. destruct E2 as [Du Dv]. apply zlen0 in Du. apply digits_number in Dv. cbn [rbind fst snd] in Hp. rewrite !int_decimal in Hp. unfold MAX_REPETITIONS in Hp. destruct ((32767 <? 0) || (32767 <? decimal v) || (decimal v <? 0)) eqn:E3; [discriminate Hp|].
            exists (QUpTo v). cbn [q_ok q_text]. split; [split; [exact Dv|lia]|]. rewrite Ef, Du. reflexivity.
          * destruct (digits u && (zlen v =? 0)) eqn:E3; [|discriminate Hp]. apply andb_true_iff in E3. destruct E3 as [Du Dv]. apply zlen0 in Dv. apply digits_number in Du. cbn [rbind fst snd] in Hp. rewrite !int_decimal in Hp. unfold MAX_REPETITIONS in Hp. destruct ((32767 <? decimal u) || (32767 <? 32767) || (32767 <? decimal u)) eqn:E4; [discriminate Hp|].
            exists (QFrom u). cbn [q_ok q_text]. split; [split; [exact Du|lia]|]. rewrite Ef, Dv. rewrite <- app_assoc. reflexivity.
      - destruct (digits x) eqn:Dx; [|discriminate Hp]. apply digits_number in Dx. cbn [rbind fst snd] in Hp. rewrite int_decimal in Hp. unfold MAX_REPETITIONS in Hp. destruct ((32767 <? decimal x) || (32767 <? decimal x) || (decimal x <? decimal x)) eqn:E4; [discriminate Hp|].
        exists (QExact x). cbn [q_ok q_text]. split; [split; [exact Dx|lia]|reflexivity]. }
    destruct G as (q & Hq & E). exists q. split; [exact Hq|]. split; [exact E|]. rewrite E, (parse_ok q Hq) in Hp. injection Hp as <-. reflexivity.
Qed.
Lemma parse_err : forall t a b e, repetition t = Ok (a, b) -> parseRepetition a = Err e -> e = OtherError.
Proof.
  intros t a b e Hr Hp. destruct (repetition_inv _ _ _ Hr) as [_ [->|[->|[->|[->|(x & -> & N)]]]]]; try discriminate Hp.
  rewrite brace_shape in Hp. destruct (find_idx 44 x) as [i|]; cbv zeta in Hp.
  - destruct (digits _ && digits _); [|destruct ((_ =? 0) && digits _); [|destruct (digits _ && _)]]; cbn [rbind] in Hp; try (injection Hp as <-; reflexivity); destruct (_ || _ || _); try discriminate Hp; injection Hp as <-; reflexivity.
  - destruct (digits x); cbn [rbind] in Hp; [|injection Hp as <-; reflexivity]. destruct (_ || _ || _); [injection Hp as <-; reflexivity|discriminate Hp].
Qed.
