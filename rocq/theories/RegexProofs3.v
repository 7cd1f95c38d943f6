(** * Proofs about the compiler of NDN regular expressions *)
From Verif Require Import Base BaseLemmas NameModel UriModel BlobModel RegexModel RegexSpec RegexProofs RegexProofs2.
From Coq Require Import Arith.
Local Open Scope res_scope.

Section P.
Variable re_groups : str -> res nat.
Notation groups := (groups re_groups).
Notation nrefs_item := (nrefs_item re_groups).
Notation nrefs := (nrefs re_groups).
Notation wf_item := (wf_item re_groups).
Notation wf := (wf re_groups).
Notation t_ok := (t_ok re_groups).
Notation tr := (tr re_groups).
Notation tr_item := (tr_item re_groups).
Notation tr_cms := (tr_cms re_groups).
Notation compile_list := (compile_list re_groups).
Notation compile_multiple := (compile_multiple re_groups).
Notation compile_set := (compile_set re_groups).
Notation compile_component := (compile_component re_groups).

Lemma component_ok : forall t k, t_ok t -> compile_component t k = Ok (Cm t k (groups t), (k + groups t)%nat).
Proof. intros t k [_ [g E]]. unfold RegexModel.compile_component, RegexSpec.groups. rewrite E. reflexivity. Qed.
Lemma component_inv : forall t k r, compile_component t k = Ok r -> exists g, re_groups t = Ok g.
Proof. intros t k r. unfold RegexModel.compile_component. destruct (re_groups t) as [g|]; [|discriminate]. intros _. exists g. reflexivity. Qed.
Lemma multiple_ok : forall ts k x fuel, Forall t_ok ts -> (length (flat_map comp_text ts) <= fuel)%nat ->
  compile_multiple fuel (flat_map comp_text ts ++ [x]) k = Ok (tr_cms k ts, (k + list_sum (map groups ts))%nat).
Proof.
  induction ts as [|t ts IH]; intros k x fuel F L; cbn [flat_map app RegexProofs.tr_cms map list_sum].
  - destruct fuel; cbn; rewrite Nat.add_0_r; reflexivity.
  - inversion F as [|? ? Ht F']; subst. cbn [flat_map] in L. rewrite app_length in L. unfold comp_text in L at 1. cbn [length] in L. rewrite app_length in L. cbn [length] in L.
    destruct fuel as [|f]; [lia|]. unfold comp_text at 1. cbn [app]. rewrite <- !app_assoc. cbn [app]. destruct (t ++ 62 :: flat_map comp_text ts ++ [x]) as [|y z] eqn:E; [destruct t; discriminate E|]. cbn [RegexModel.compile_multiple]. change (60 =? 60) with true. cbn [negb]. rewrite <- E.
    rewrite sub_pattern_bal by (first [discriminate|apply Ht]). cbn [rbind fst snd]. rewrite removelast_last, (component_ok t k Ht). cbn [rbind fst snd]. rewrite IH by (first [assumption|lia]). cbn [rbind fst snd map]. f_equal. f_equal. unfold list_sum. cbn [fold_right]. lia.
Qed.
Lemma bal_of : forall l r t a, (count l t + 0 = count r t)%nat -> (forall p s, t = p ++ s -> (count r p <= count l p + 0)%nat) -> a = t -> balanced l r a.
Proof. intros l r t a C P ->. split; [lia|]. intros p s E. specialize (P p s E). lia. Qed.
Lemma multiple_inv : forall fuel t k r, compile_multiple fuel t k = Ok r -> exists ts x, t = flat_map comp_text ts ++ [x] /\ Forall t_ok ts.
Proof.
  induction fuel as [|f IH]; intros t k r.
  - destruct t as [|c [|c' t]]; cbn [RegexModel.compile_multiple]; [discriminate| |].
    + intros _. exists [], c. split; [reflexivity|constructor].
    + destruct (negb (c =? 60)); [discriminate|]. destruct (sub_pattern 60 62 1 (c' :: t)); [|discriminate]. cbn [rbind]. destruct (compile_component _ k); discriminate.
  - destruct t as [|c [|c' t]]; cbn [RegexModel.compile_multiple]; [discriminate| |].
    + intros _. exists [], c. split; [reflexivity|constructor].
    + destruct (Z.eqb_spec c 60) as [->|]; [cbn [negb]|discriminate]. destruct (sub_pattern 60 62 1 (c' :: t)) as [[a b]|] eqn:E; [|discriminate]. cbn [rbind fst snd]. destruct (compile_component (removelast a) k) as [cc|] eqn:Ec; [|discriminate]. cbn [rbind].
      destruct (compile_multiple f b (snd cc)) as [r'|] eqn:Er; [|discriminate]. intros _. destruct (IH _ _ _ Er) as (ts & x & -> & F). apply sub_pattern_inv in E; [|discriminate]. destruct E as (t' & -> & Et & C & P). rewrite removelast_last in Ec. apply component_inv in Ec.
      exists (t' :: ts), x. split; [|constructor; [split; [eapply bal_of; [exact C|exact P|reflexivity]|exact Ec]|exact F]]. cbn [flat_map]. unfold comp_text at 1. cbn [app]. rewrite Et, <- !app_assoc. reflexivity.
Qed.
Lemma multiple_err : forall fuel t k e, (length t <= fuel)%nat -> compile_multiple fuel t k = Err e -> e = OtherError \/ exists x, re_groups x = Err e.
Proof.
  induction fuel as [|f IH]; intros t k e L.
  - destruct t; [|cbn in L; lia]. cbn. intros [= <-]. auto.
  - destruct t as [|c [|c' t]]; cbn [RegexModel.compile_multiple]; [intros [= <-]; auto|discriminate|].
    destruct (negb (c =? 60)); [intros [= <-]; auto|]. destruct (sub_pattern 60 62 1 (c' :: t)) as [[a b]|e'] eqn:E; cbn [rbind fst snd]; [|intros [= <-]; left; eapply sub_pattern_err; exact E].
    destruct (compile_component (removelast a) k) as [cc|e'] eqn:Ec; cbn [rbind].
    + destruct (compile_multiple f b (snd cc)) as [r'|e'] eqn:Er; cbn [rbind]; [discriminate|]. intros [= <-]. eapply IH; [|exact Er]. apply sub_pattern_inv in E; [|discriminate]. destruct E as (t' & _ & Et & _). apply (f_equal (@length Z)) in Et. rewrite app_length in Et. cbn [length] in *. lia.
    + intros [= <-]. right. unfold RegexModel.compile_component in Ec. destruct (re_groups (removelast a)) as [g|e2] eqn:Eg; [discriminate Ec|]. injection Ec as <-. eauto.
Qed.

Lemma set_ok : forall neg ts k, Forall t_ok ts -> compile_set 91 (set_text neg ts ++ [93]) k = Ok (MSet (negb neg) (tr_cms k ts), (k + list_sum (map groups ts))%nat).
Proof.
  intros neg ts k F. unfold RegexModel.compile_set. change (91 =? 60) with false. cbv iota. unfold set_text. destruct neg; cbn [app negb].
  - rewrite multiple_ok; [reflexivity|exact F|]. rewrite app_length. lia.
  - assert (M := multiple_ok ts k 93 (length (flat_map comp_text ts ++ [93])) F ltac:(rewrite app_length; lia)).
    destruct ts as [|t ts]; [cbn in *; rewrite Nat.add_0_r; reflexivity|]. destruct (flat_map comp_text (t :: ts) ++ [93]) as [|c z] eqn:E; [discriminate E|]. assert (c = 60) by (cbn in E; injection E as <- _; reflexivity). subst c. rewrite M. reflexivity.
Qed.
Lemma one_ok : forall t k, t_ok t -> compile_set 60 (t ++ [62]) k = Ok (MSet true [Cm t k (groups t)], (k + groups t)%nat).
Proof.
  intros t k H. unfold RegexModel.compile_set. change (60 =? 60) with true. cbv iota. rewrite sub_pattern_bal by (first [discriminate|apply H]). cbn [rbind fst snd]. rewrite removelast_last, (component_ok t k H). reflexivity.
Qed.
Lemma app_one_inj : forall (a b : str) x y, a ++ [x] = b ++ [y] -> a = b /\ x = y.
Proof. intros a b x y E. apply app_inj_tail in E. exact E. Qed.
Lemma set_inv : forall t k r, compile_set 91 (t ++ [93]) k = Ok r -> exists neg ts, t = set_text neg ts /\ Forall t_ok ts.
Proof.
  intros t k r. unfold RegexModel.compile_set. change (91 =? 60) with false. cbv iota. 
  assert (G : forall t u, compile_multiple (length u) u k = Ok t -> forall v, u = v ++ [93] -> exists ts, v = flat_map comp_text ts /\ Forall t_ok ts).
  { intros t0 u E v ->. apply multiple_inv in E. destruct E as (ts & x & Ex & F). apply app_one_inj in Ex. destruct Ex as [-> _]. eauto. }
  destruct t as [|c t].
  - intros _. exists false, []. split; [reflexivity|constructor].
  - destruct (Z.eq_dec c 94) as [->|N].
    + cbn [app]. destruct (compile_multiple _ (t ++ [93]) k) as [r'|] eqn:E; [|discriminate]. intros _. destruct (G _ _ E t eq_refl) as (ts & -> & F). exists true, ts. split; [reflexivity|exact F].
    + assert (Em : forall X Y (f : str -> X) (d : X), match (c :: t) ++ [93] with 94 :: t' => f t' | _ => d end = match Y : Z with _ => d end).
      { intros. cbn [app]. destruct c as [|p|p]; try reflexivity. do 7 (destruct p as [p|p|]; try reflexivity). congruence. }
      rewrite (Em _ 0 (fun t' => r0 <-- compile_multiple (length t') t' k ;; Ok (MSet false (fst r0), snd r0))).
      destruct (compile_multiple _ ((c :: t) ++ [93]) k) as [r'|] eqn:E; [|discriminate]. intros _. destruct (G _ _ E (c :: t) eq_refl) as (ts & -> & F). exists false, ts. split; [reflexivity|exact F].
Qed.
Lemma one_inv : forall t k r, compile_set 60 (t ++ [62]) k = Ok r -> balanced 60 62 t -> t_ok t.
Proof.
  intros t k r. unfold RegexModel.compile_set. change (60 =? 60) with true. cbv iota. intros H B. rewrite sub_pattern_bal in H by (first [discriminate|exact B]). cbn [rbind fst snd] in H. rewrite removelast_last in H. destruct (compile_component t k) as [c|] eqn:E; [|discriminate H]. apply component_inv in E. split; [exact B|exact E].
Qed.
Lemma set_err : forall c t k e, compile_set c t k = Err e -> e = OtherError \/ exists x, re_groups x = Err e.
Proof.
  intros c t k e. unfold RegexModel.compile_set. destruct (c =? 60).
  - destruct (sub_pattern 60 62 1 t) as [[a b]|e'] eqn:E; cbn [rbind fst snd]; [|intros [= <-]; left; eapply sub_pattern_err; exact E]. destruct b; [|intros [= <-]; auto].
    unfold RegexModel.compile_component. destruct (re_groups (removelast a)) as [g|e2] eqn:Eg; [discriminate|]. intros [= <-]. eauto.
  - assert (G : forall b u, (r <-- compile_multiple (length u) u k ;; Ok (MSet b (fst r), snd r)) = Err e -> e = OtherError \/ exists x, re_groups x = Err e).
    { intros b u. destruct (compile_multiple (length u) u k) as [r|e'] eqn:E; cbn [rbind]; [discriminate|]. intros [= <-]. eapply multiple_err; [|exact E]. lia. }
    destruct t as [|x t]; [apply G|]. destruct x as [|p|p]; try apply G. do 7 (destruct p as [p|p|]; try apply G).
Qed.

Lemma e_starts : forall e, starts (e_text e).
Proof. intros [|i e]; [left; reflexivity|right]. destruct i; cbn; eauto 6. Qed.
Lemma list_ok : forall e k fuel, wf e -> (length (e_text e) <= fuel)%nat -> compile_list fuel (e_text e) k = Ok (tr k e, (k + nrefs e)%nat).
Proof.
  intros e. remember (length (e_text e)) as n eqn:En. assert (Hn : (length (e_text e) <= n)%nat) by lia. clear En. revert e Hn. induction n as [|n IH]; intros e Hn k fuel W L.
  - destruct e as [|i e]; [destruct fuel; cbn; rewrite Nat.add_0_r; reflexivity|]. destruct i; cbn in Hn; lia.
  - destruct e as [|i e]; [destruct fuel; cbn; rewrite Nat.add_0_r; reflexivity|]. inversion W as [|? ? Wi We]; subst. destruct fuel as [|f]; [lia|].
    rewrite nrefs_cons. change (e_text (i :: e)) with (i_text i ++ e_text e) in *. rewrite app_length in Hn. destruct i as [t q|neg ts q|l q]; cbn [i_text] in *.
    + destruct Wi as [Ht Hq]. unfold comp_text in *. replace ((60 :: t ++ [62]) ++ q_text q) with (60 :: t ++ 62 :: q_text q) in * by (cbn [app]; rewrite <- app_assoc; reflexivity). cbn [app RegexModel.compile_list]. change (60 =? 40) with false. change (60 =? 60) with true. cbv iota. cbn [orb]. rewrite <- app_assoc. cbn [app]. rewrite sub_pattern_bal by (first [discriminate|apply Ht]). cbn [rbind fst snd].
      rewrite (repetition_ok q _ Hq (e_starts e)). cbn [rbind fst snd]. rewrite (one_ok t k Ht). cbn [rbind fst snd]. rewrite (parse_ok q Hq). cbn [rbind fst snd]. cbn [length] in Hn. rewrite app_length in Hn. cbn [length] in Hn. rewrite IH; [|lia|exact We|lia]. cbn [rbind fst snd]. cbn [RegexProofs.tr RegexProofs.tr_item RegexSpec.nrefs_item RegexProofs.tr_cms]. rewrite Nat.add_assoc. reflexivity.
    + destruct Wi as (Ht & Hb & Hq). cbn [app RegexModel.compile_list]. change (91 =? 40) with false. change (91 =? 60) with false. change (91 =? 91) with true. cbv iota. cbn [orb]. rewrite <- app_assoc. cbn [app]. rewrite sub_pattern_bal by (first [discriminate|exact Hb]). cbn [rbind fst snd].
      rewrite (repetition_ok q _ Hq (e_starts e)). cbn [rbind fst snd]. rewrite (set_ok neg ts k Ht). cbn [rbind fst snd]. rewrite (parse_ok q Hq). cbn [rbind fst snd]. cbn [length] in Hn. rewrite app_length in Hn. cbn [length] in Hn. rewrite IH; [|lia|exact We|lia]. cbn [rbind fst snd]. cbn [RegexProofs.tr RegexProofs.tr_item RegexSpec.nrefs_item]. rewrite Nat.add_assoc. reflexivity.
    + apply wf_group in Wi. destruct Wi as (Wl & Hb & Hq). change (flat_map i_text l) with (e_text l) in *. cbn [app RegexModel.compile_list]. change (40 =? 40) with true. cbv iota. rewrite <- app_assoc. cbn [app]. rewrite sub_pattern_bal by (first [discriminate|exact Hb]). cbn [rbind fst snd].
      rewrite (repetition_ok q _ Hq (e_starts e)). cbn [rbind fst snd]. rewrite removelast_last. cbn [length] in Hn. rewrite app_length in Hn. cbn [length] in Hn. rewrite IH; [|lia|exact Wl|lia]. cbn [rbind fst snd].
      assert (Em : (match q_text q with [] => Ok (MGroup k (tr (S k) l)) | _ => r <-- parseRepetition (q_text q) ;; Ok (MRep (MGroup k (tr (S k) l)) (fst r) (snd r)) end) = Ok (tr_item k (Group l q))).
      { rewrite tr_group. pose proof (parse_ok q Hq) as P. destruct q; try reflexivity; cbn [q_text] in *; rewrite P; reflexivity. }
      rewrite Em. cbn [rbind fst snd]. rewrite IH; [|lia|exact We|lia]. cbn [rbind fst snd RegexProofs.tr]. rewrite nrefs_group. f_equal. f_equal; [|lia]. f_equal. f_equal. lia.
Qed.
Lemma list_inv : forall fuel t k r, compile_list fuel t k = Ok r -> exists e, wf e /\ t = e_text e.
Proof.
  induction fuel as [|f IH]; intros t k r.
  - destruct t; cbn; [|discriminate]. intros _. exists []. split; [constructor|reflexivity].
  - destruct t as [|c t]; cbn [RegexModel.compile_list]; [intros _; exists []; split; [constructor|reflexivity]|]. destruct (Z.eqb_spec c 40) as [->|N].
    + destruct (sub_pattern 40 41 1 t) as [[a b]|] eqn:E1; [|discriminate]. cbn [rbind fst snd]. destruct (repetition b) as [[qa qb]|] eqn:E2; [|discriminate]. cbn [rbind fst snd]. destruct (compile_list f (removelast a) (S k)) as [g|] eqn:E3; [|discriminate]. cbn [rbind fst snd].
      intros H. assert (Hp : exists q, q_ok q /\ qa = q_text q).
      { destruct qa as [|x qa]; [exists QOne; split; [exact I|reflexivity]|]. destruct (parseRepetition (x :: qa)) as [pr|] eqn:E4; [|discriminate H]. destruct (parse_inv _ _ _ _ E2 E4) as (q & Hq & Eq & _). eauto. }
      destruct Hp as (q & Hq & ->). assert (Hl : exists r', compile_list f qb (snd g) = Ok r') by (destruct (match q_text q with [] => _ | _ => _ end) as [m|]; [|discriminate H]; cbn [rbind] in H; destruct (compile_list f qb (snd g)) as [r'|]; [eauto|discriminate H]). destruct Hl as (r' & Er). clear H.
      destruct (IH _ _ _ Er) as (e & We & ->). destruct (repetition_inv _ _ _ E2) as [-> _]. apply sub_pattern_inv in E1; [|discriminate]. destruct E1 as (t' & -> & -> & C & P). rewrite removelast_last in E3. destruct (IH _ _ _ E3) as (l & Wl & ->).
      exists (Group l q :: e). split; [constructor; [|exact We]; apply wf_group; split; [exact Wl|]; split; [eapply bal_of; [exact C|exact P|reflexivity]|exact Hq]|]. cbn [e_text flat_map i_text app]. rewrite <- app_assoc. reflexivity.
    + destruct ((c =? 60) || (c =? 91)) eqn:Ec; [|discriminate]. assert (Hc : c = 60 \/ c = 91) by lia. clear Ec. set (cl := if c =? 60 then 62 else 93). destruct (sub_pattern c cl 1 t) as [[a b]|] eqn:E1; [|discriminate]. cbn [rbind fst snd]. destruct (repetition b) as [[qa qb]|] eqn:E2; [|discriminate]. cbn [rbind fst snd]. destruct (compile_set c a k) as [g|] eqn:E3; [|discriminate]. cbn [rbind fst snd]. destruct (parseRepetition qa) as [pr|] eqn:E4; [|discriminate]. cbn [rbind fst snd].
      destruct (compile_list f qb (snd g)) as [r'|] eqn:Er; [|discriminate]. intros _. destruct (IH _ _ _ Er) as (e & We & ->). destruct (repetition_inv _ _ _ E2) as [-> _]. destruct (parse_inv _ _ _ _ E2 E4) as (q & Hq & -> & _). apply sub_pattern_inv in E1; [|unfold cl; destruct Hc as [-> | ->]; intros X; cbn in X; discriminate X]. destruct E1 as (t' & -> & -> & C & P). assert (B : balanced c cl t') by (eapply bal_of; [exact C|exact P|reflexivity]).
      destruct Hc as [-> | ->]; cbn in cl; subst cl.
      * exists (One t' q :: e). split; [constructor; [split; [eapply one_inv; [exact E3|exact B]|exact Hq]|exact We]|]. cbn [e_text flat_map i_text app]. unfold comp_text. cbn [app]. rewrite <- !app_assoc. reflexivity.
      * apply set_inv in E3. destruct E3 as (neg & ts & -> & F). exists (Set_ neg ts q :: e). split; [constructor; [split; [exact F|]; split; [exact B|exact Hq]|exact We]|]. cbn [e_text flat_map i_text app]. rewrite <- app_assoc. reflexivity.
Qed.
Lemma rep_len : forall t a b, repetition t = Ok (a, b) -> (length b <= length t)%nat.
Proof. intros t a b H. destruct (repetition_inv _ _ _ H) as [-> _]. rewrite app_length. lia. Qed.
Lemma sub_len : forall l r t a b, l <> r -> sub_pattern l r 1 t = Ok (a, b) -> (length (removelast a) <= length t)%nat /\ (length b < length t)%nat.
Proof. intros l r t a b N H. apply sub_pattern_inv in H; [|exact N]. destruct H as (t' & -> & -> & _). rewrite removelast_last, app_length. cbn [length]. lia. Qed.
Lemma list_err : forall fuel t k e, (length t <= fuel)%nat -> compile_list fuel t k = Err e -> e = OtherError \/ exists x, re_groups x = Err e.
Proof.
  induction fuel as [|f IH]; intros t k e L.
  - destruct t; [discriminate|cbn in L; lia].
  - destruct t as [|c t]; [discriminate|]. cbn [length] in L. cbn [RegexModel.compile_list]. destruct (Z.eqb_spec c 40) as [->|N].
    + destruct (sub_pattern 40 41 1 t) as [[a b]|e'] eqn:E1; cbn [rbind fst snd]; [|intros [= <-]; left; eapply sub_pattern_err; exact E1]. destruct (sub_len 40 41 _ _ _ ltac:(discriminate) E1) as [L1 L2].
      destruct (repetition b) as [[qa qb]|e'] eqn:E2; cbn [rbind fst snd]; [|intros [= <-]; left; eapply repetition_err; exact E2]. pose proof (rep_len _ _ _ E2) as L3. destruct (compile_list f (removelast a) (S k)) as [g|e'] eqn:E3; cbn [rbind fst snd]; [|intros [= <-]; eapply IH; [|exact E3]; lia].
      destruct (match qa with [] => _ | _ => _ end) as [m|e'] eqn:E4; cbn [rbind fst snd].
      * destruct (compile_list f qb (snd g)) as [r'|e'] eqn:Er; cbn [rbind]; [discriminate|]. intros [= <-]. eapply IH; [|exact Er]. lia.
      * intros [= <-]. left. destruct qa as [|x qa]; [discriminate E4|]. destruct (parseRepetition (x :: qa)) as [pr|e2] eqn:E5; [discriminate E4|]. injection E4 as <-. eapply parse_err; [exact E2|exact E5].
    + destruct ((c =? 60) || (c =? 91)) eqn:Ec; [|intros [= <-]; auto]. assert (Hc : c = 60 \/ c = 91) by lia. clear Ec. assert (Ncl : c <> (if c =? 60 then 62 else 93)) by (destruct Hc as [-> | ->]; intros X; cbn in X; discriminate X). set (cl := if c =? 60 then 62 else 93) in *.
      destruct (sub_pattern c cl 1 t) as [[a b]|e'] eqn:E1; cbn [rbind fst snd]; [|intros [= <-]; left; eapply sub_pattern_err; exact E1]. destruct (sub_len _ _ _ _ _ Ncl E1) as [L1 L2].
      destruct (repetition b) as [[qa qb]|e'] eqn:E2; cbn [rbind fst snd]; [|intros [= <-]; left; eapply repetition_err; exact E2]. pose proof (rep_len _ _ _ E2) as L3. destruct (compile_set c a k) as [g|e'] eqn:E3; cbn [rbind fst snd]; [|intros [= <-]; eapply set_err; exact E3].
      destruct (parseRepetition qa) as [pr|e'] eqn:E4; cbn [rbind fst snd]; [|intros [= <-]; left; eapply parse_err; [exact E2|exact E4]].
      destruct (compile_list f qb (snd g)) as [r'|e'] eqn:Er; cbn [rbind]; [discriminate|]. intros [= <-]. eapply IH; [|exact Er]. lia.
Qed.
Lemma compile_ok : forall e, wf e -> compile re_groups (e_text e) = Ok (tr 0 e, nrefs e).
Proof. intros e W. unfold compile. rewrite list_ok; [reflexivity|exact W|lia]. Qed.
Lemma compile_inv : forall t r, compile re_groups t = Ok r -> exists e, wf e /\ t = e_text e /\ r = (tr 0 e, nrefs e).
Proof. intros t r H. destruct (list_inv _ _ _ _ H) as (e & W & ->). exists e. split; [exact W|]. split; [reflexivity|]. rewrite (compile_ok e W) in H. injection H as <-. reflexivity. Qed.
Lemma compile_err : forall t e, compile re_groups t = Err e -> e = OtherError \/ exists x, re_groups x = Err e.
Proof. intros t e H. eapply list_err; [|exact H]. lia. Qed.
End P.
