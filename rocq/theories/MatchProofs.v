(** * Lemmas for C14 and C15 *)
From Verif Require Import Base BaseLemmas TlvModel NameModel NameSpec NameProofs WireModel MatchModel MatchSpec.
From Coq Require Import ZifyBool.

Definition lt_c (a b : comp) : Prop := key_lt (c_key a) (c_key b).
Definition low (p : option comp) (c : comp) : Prop := match p with None => True | Some l => lt_c l c end.
(** Reference recursion: [run] tells whether the entries before are a run of ANY. *)
Fixpoint hits (run : bool) (p : option comp) (es : list exentry) (c : comp) : Prop :=
  match es with
  | [] => run = true /\ low p c
  | ExAny :: es' => hits true p es' c
  | ExComp e :: es' => (run = true /\ low p c /\ lt_c c e) \/ c_key e = c_key c \/ hits false (Some e) es' c
  end.

Definition pre_last (pre : list exentry) (p : option comp) : Prop :=
  match p with None => pre = [] | Some l => exists q, pre = q ++ [ExComp l] end.
Lemma pre_last_above : forall pre p c, pre_last pre p -> (above pre c <-> low p c).
Proof.
  intros pre [l|] c H; cbn in *.
  - destruct H as [q ->]. split.
    + intros [E|(p & l' & E & H)]; [destruct q; discriminate|]. apply app_inj_tail in E. destruct E as [_ E]. injection E as ->. exact H.
    + intros H. right. exists q, l. split; [reflexivity|exact H].
  - subst. split; [intros; exact I|intros; left; reflexivity].
Qed.
Lemma repeat_any_comp : forall n q (l : comp), repeat ExAny n <> q ++ [ExComp l].
Proof.
  intros n q l E. assert (In (ExComp l) (repeat ExAny n)) as H by (rewrite E; apply in_or_app; right; left; reflexivity).
  apply repeat_spec in H. discriminate.
Qed.
Lemma any_run : forall n d (k : nat) post, repeat ExAny n = d ++ repeat ExAny (S k) ++ post -> exists m, d = repeat ExAny m.
Proof.
  induction n as [|n IH]; intros d k post E.
  - destruct d; discriminate.
  - destruct d as [|x d]; [exists 0%nat; reflexivity|]. cbn [repeat app] in E. injection E as <- E.
    destruct (IH d k post) as [m ->]; [exact E|]. exists (S m). reflexivity.
Qed.
Lemma above_any : forall pre m c, (0 < m)%nat -> ~ above (pre ++ repeat ExAny m) c.
Proof.
  intros pre m c Hm [E|(p & l & E & _)].
  - apply app_eq_nil in E. destruct E as [_ E]. destruct m; [lia|discriminate].
  - replace m with (pred m + 1)%nat in E by lia. rewrite repeat_app, app_assoc in E. cbn [repeat] in E. apply app_inj_tail in E. destruct E as [_ E]. discriminate.
Qed.
(** A decomposition into a run starts at the known run or after the next component. *)
Lemma split_run : forall n e es d k post pre c, above (pre ++ d) c ->
  repeat ExAny n ++ ExComp e :: es = d ++ repeat ExAny (S k) ++ post ->
  (d = [] /\ (0 < n)%nat /\ exists j, repeat ExAny n = repeat ExAny (S k) ++ j /\ j ++ ExComp e :: es = post) \/
  (exists d', d = repeat ExAny n ++ ExComp e :: d' /\ es = d' ++ repeat ExAny (S k) ++ post).
Proof.
  induction n as [|n IH]; intros e es d k post pre c A E.
  - right. cbn [repeat app] in *. destruct d as [|x d']; [discriminate|]. injection E as <- E. exists d'. split; [reflexivity|exact E].
  - destruct d as [|x d'].
    + left. split; [reflexivity|]. split; [lia|]. clear A IH. cbn [app] in E.
      revert k n E. induction k as [|k IHk]; intros n E.
      * cbn [repeat app] in *. injection E as E. exists (repeat ExAny n). split; [reflexivity|exact E].
      * destruct n as [|n]; [cbn in E; discriminate|]. cbn [repeat app] in E. injection E as E. destruct (IHk n) as (j & J1 & J2); [cbn [repeat app]; f_equal; exact E|].
        exists j. split; [cbn [repeat app] in *; f_equal; exact J1|exact J2].
    + cbn [repeat app] in E. injection E as <- E. replace (pre ++ ExAny :: d') with ((pre ++ [ExAny]) ++ d') in A by (rewrite <- app_assoc; reflexivity).
      destruct (IH e es d' k post _ c A E) as [(-> & Hn & j & J)|(d'' & -> & J)].
      * exfalso. rewrite app_nil_r in A. apply (above_any pre 1 c); [lia|exact A].
      * right. exists d''. split; [reflexivity|exact J].
Qed.
Definition run_from (pre L : list exentry) (c : comp) : Prop :=
  exists pre' k post, L = pre' ++ repeat ExAny (S k) ++ post /\ (length pre <= length pre')%nat /\ above pre' c /\ below post c.
Lemma below_comp : forall j e es c, below (j ++ ExComp e :: es) c -> Forall (fun x => x = ExAny) j -> j = [] /\ lt_c c e.
Proof.
  intros [|x j] e es c B F.
  - split; [reflexivity|]. destruct B as [B|(u & q & E & H)]; [discriminate|]. cbn in E. injection E as -> _. exact H.
  - exfalso. inversion F; subst. destruct B as [B|(u & q & E & H)]; discriminate.
Qed.
Lemma app_prefix : forall A (a b x y : list A), a ++ x = b ++ y -> (length a <= length b)%nat -> exists d, b = a ++ d /\ x = d ++ y.
Proof.
  induction a as [|h a IH]; intros b x y E L; [exists b; split; [reflexivity|exact E]|].
  destruct b as [|h' b]; [cbn in L; lia|]. cbn in E. injection E as <- E. destruct (IH b x y E ltac:(cbn in L; lia)) as (d & -> & D). exists d. split; [reflexivity|exact D].
Qed.
Lemma hits_iff : forall es pre p n c, pre_last pre p ->
  (hits (0 <? n)%nat p es c <-> (exists e, In (ExComp e) es /\ c_key e = c_key c) \/ run_from pre (pre ++ repeat ExAny n ++ es) c).
Proof.
  induction es as [|x es IH]; intros pre p n c P.
  - cbn [hits]. rewrite app_nil_r. split.
    + intros [N H]. right. assert (0 < n)%nat by (apply Nat.ltb_lt; exact N). destruct n as [|n]; [lia|].
      exists pre, n, []. rewrite app_nil_r. split; [reflexivity|]. split; [lia|]. split; [apply (pre_last_above _ _ _ P), H|left; reflexivity].
    + intros [(e & [] & _)|(pre' & k & post & E & L & A & B)].
      destruct (app_prefix _ _ _ _ _ E L) as (d & -> & D). destruct (any_run _ _ _ _ D) as [m ->].
      destruct m as [|m]; [|exfalso; apply (above_any pre (S m) c); [lia|exact A]].
      cbn [repeat app] in *. rewrite app_nil_r in A. split; [destruct n; [discriminate|reflexivity]|apply (pre_last_above _ _ _ P), A].
  - destruct x as [|e].
    + cbn [hits]. specialize (IH pre p (S n) c P). cbn [Nat.ltb Nat.leb] in IH. rewrite IH.
      replace (repeat ExAny (S n) ++ es) with (repeat ExAny n ++ ExAny :: es).
      * split; (intros [(e & I & K)|R]; [left; exists e; split; [|exact K]|right; exact R]); [right; exact I|destruct I as [I|I]; [discriminate|exact I]].
      * replace (S n) with (n + 1)%nat by lia. rewrite repeat_app, <- app_assoc. reflexivity.
    + cbn [hits]. assert (P' : pre_last (pre ++ repeat ExAny n ++ [ExComp e]) (Some e)) by (exists (pre ++ repeat ExAny n); rewrite app_assoc; reflexivity).
      specialize (IH _ _ 0%nat c P'). cbn [Nat.ltb Nat.leb repeat app] in IH. rewrite IH.
      replace ((pre ++ repeat ExAny n ++ [ExComp e]) ++ es) with (pre ++ repeat ExAny n ++ ExComp e :: es) by (rewrite <- !app_assoc; reflexivity).
      split.
      * intros [(N & Lo & Hi)|[K|[(e' & I & K)|(pre' & k & post & E & L & A & B)]]].
        -- right. assert (0 < n)%nat by (apply Nat.ltb_lt; exact N). destruct n as [|n]; [lia|].
           exists pre, n, (ExComp e :: es). split; [reflexivity|]. split; [lia|]. split; [apply (pre_last_above _ _ _ P), Lo|]. right. exists e, es. split; [reflexivity|exact Hi].
        -- left. exists e. split; [left; reflexivity|exact K].
        -- left. exists e'. split; [right; exact I|exact K].
        -- right. exists pre', k, post. split; [exact E|]. split; [rewrite !app_length in L; lia|]. split; assumption.
      * intros [(e' & [I|I] & K)|(pre' & k & post & E & L & A & B)].
        -- injection I as ->. right. left. exact K.
        -- right. right. left. exists e'. split; assumption.
        -- destruct (app_prefix _ _ _ _ _ E L) as (d & -> & D). destruct (split_run _ _ _ _ _ _ _ _ A D) as [(-> & Hn & j & J1 & J2)|(d' & -> & J)].
           ++ left. split; [apply Nat.ltb_lt; exact Hn|]. rewrite app_nil_r in A. split; [apply (pre_last_above _ _ _ P), A|].
              rewrite <- J2 in B. apply (below_comp j e es c B). apply Forall_forall. intros y Hy. apply (repeat_spec n ExAny y). rewrite J1. apply in_or_app. right. exact Hy.
           ++ right. right. right. exists (pre ++ repeat ExAny n ++ ExComp e :: d'), k, post. rewrite J. rewrite <- !app_assoc. cbn [app].
              split; [reflexivity|]. split; [rewrite !app_length; cbn [length]; lia|]. split; assumption.
Qed.
Lemma excluded_hits : forall es c, excluded es c <-> hits false None es c.
Proof.
  intros es c. rewrite (hits_iff es [] None 0 c eq_refl). unfold excluded, run_from. cbn [repeat app length]. split.
  - intros [H|(p & k & q & E & A & B)]; [left; exact H|right]. exists p, k, q. split; [exact E|]. split; [lia|]. split; assumption.
  - intros [H|(p & k & q & E & _ & A & B)]; [left; exact H|right]. exists p, k, q. split; [exact E|]. split; assumption.
Qed.

(** ** The loop *)
Lemma cmp_gt : forall c l, (0 <? c_compare c l) = true <-> lt_c l c.
Proof. intros c l. unfold lt_c. destruct (c_compare_cases c l) as [(E & H)|[(E & H)|(E & H)]]; rewrite E; cbn; (split; [try discriminate; try (intros; exact H)|]).
  - intros K. exfalso. eapply (key_lt_irr (c_key c)). eapply key_lt_tra; eassumption.
  - intros K. rewrite H in K. exfalso. eapply key_lt_irr; eassumption.
  - reflexivity. Qed.
Lemma cmp_lt : forall c u, (c_compare c u <? 0) = true <-> lt_c c u.
Proof. intros c u. unfold lt_c. destruct (c_compare_cases c u) as [(E & H)|[(E & H)|(E & H)]]; rewrite E; cbn; (split; [try discriminate; try (intros; exact H)|]).
  - reflexivity.
  - intros K. rewrite H in K. exfalso. eapply key_lt_irr; eassumption.
  - intros K. exfalso. eapply (key_lt_irr (c_key c)). eapply key_lt_tra; eassumption. Qed.
Lemma upper_some : forall es u, ex_upper es = Some u -> exists k r, es = repeat ExAny k ++ ExComp u :: r.
Proof.
  induction es as [|[|e] es IH]; intros u H; cbn in H; [discriminate| |injection H as ->; exists 0%nat, es; reflexivity].
  destruct (IH u H) as (k & r & ->). exists (S k), r. reflexivity.
Qed.
Lemma upper_none : forall es, ex_upper es = None -> es = repeat ExAny (length es).
Proof. induction es as [|[|e] es IH]; intros H; cbn in *; [reflexivity| |discriminate]. f_equal. apply IH, H. Qed.
Lemma jump_run : forall k prev u r c, ex_from prev true (repeat ExAny k ++ ExComp u :: r) c = if c_equals c u then Ok true else ex_from (Some (ExComp u)) false r c.
Proof. induction k as [|k IH]; intros prev u r c; [reflexivity|]. cbn [repeat app ex_from]. apply IH. Qed.
Lemma hits_run : forall k p u r c, hits true p (repeat ExAny k ++ ExComp u :: r) c <-> (low p c /\ lt_c c u) \/ c_key u = c_key c \/ hits false (Some u) r c.
Proof. induction k as [|k IH]; intros p u r c; cbn [repeat app hits]; [|apply IH]. tauto. Qed.
Lemma hits_all_any : forall k p c, hits true p (repeat ExAny k) c <-> low p c.
Proof. induction k as [|k IH]; intros p c; cbn [repeat hits]; [tauto|apply IH]. Qed.

Definition pe (p : option comp) : option exentry := match p with Some l => Some (ExComp l) | None => None end.
(** The entries from a state on end in a component followed by two or more ANY. *)
Definition bad_tail (p : option comp) (es : list exentry) : Prop :=
  exists q l k, match p with Some l => [ExComp l] | None => [] end ++ es = q ++ ExComp l :: repeat ExAny (S (S k)).
Lemma bad_tail_suffix : forall p u pre r, bad_tail (Some u) r -> bad_tail p (pre ++ ExComp u :: r).
Proof.
  intros p u pre r (q & l & k & E). exists ((match p with Some l => [ExComp l] | None => [] end ++ pre) ++ q), l, k.
  rewrite <- !app_assoc. f_equal. f_equal. rewrite <- E. reflexivity.
Qed.
Lemma ex_from_ok : forall n es p c, (length es <= n)%nat -> c_valid c -> ex_valid es ->
  match ex_from (pe p) false es c with
  | Ok b => b = true <-> hits false p es c
  | Err e => e = AttributeError /\ ~ hits false p es c /\ bad_tail p es
  end.
Proof.
  induction n as [|n IH]; intros es p c L V X.
  { destruct es; [|cbn in L; lia]. cbn. split; [discriminate|intros [? _]; discriminate]. }
  destruct es as [|[|e] es]; [cbn; split; [discriminate|intros [? _]; discriminate]| |].
  - cbn [ex_from hits]. cbn [length] in L. destruct (ex_upper es) as [u|] eqn:U.
    + destruct (upper_some _ _ U) as (k & r & ->). 
      assert (Xu : ex_valid (ExComp u :: r)) by (intros x Hx; apply X; right; apply in_or_app; right; exact Hx).
      assert (K : match (if c_equals c u then Ok true else ex_from (Some (ExComp u)) false r c) with
                  | Ok b => b = true <-> c_key u = c_key c \/ hits false (Some u) r c
                  | Err e => e = AttributeError /\ ~ (c_key u = c_key c \/ hits false (Some u) r c) /\ bad_tail (Some u) r end).
      { pose proof (c_equals_iff_key c u V (Xu u (or_introl eq_refl))) as Q. destruct (c_equals c u) eqn:E.
        - split; [intros _; left; symmetry; apply Q; reflexivity|reflexivity].
        - assert (~ c_key u = c_key c) by (intro Z; symmetry in Z; apply Q in Z; congruence).
          specialize (IH r (Some u) c ltac:(rewrite app_length in L; cbn [length] in L; lia) V ltac:(intros x Hx; apply Xu; right; exact Hx)). cbn [pe] in IH.
          destruct (ex_from (Some (ExComp u)) false r c); [rewrite IH; tauto|tauto]. }
      pose proof (hits_run k p u r c) as HR. set (HH := hits true p _ c) in *. clearbody HH. rewrite jump_run.
      assert (Hit : exists h, match pe p with Some (ExComp l) => Ok ((0 <? c_compare c l) && (c_compare c u <? 0)) | Some ExAny => Err AttributeError | None => Ok (c_compare c u <? 0) end = Ok h /\ (h = true <-> low p c /\ lt_c c u)).
      { destruct p as [l|]; cbn [pe low]; eexists; (split; [reflexivity|]); [rewrite andb_true_iff, cmp_gt, cmp_lt; tauto|rewrite cmp_lt; tauto]. }
      destruct Hit as (h & -> & Hh). cbn [rbind]. destruct h.
      * split; [intros _; apply HR; left; apply Hh; reflexivity|reflexivity].
      * assert (N : ~ (low p c /\ lt_c c u)) by (intro Z; apply Hh in Z; discriminate).
        destruct (if c_equals c u then _ else _); [rewrite K; tauto|]. destruct K as (-> & K1 & K2). split; [reflexivity|]. split; [tauto|].
        apply (bad_tail_suffix p u (ExAny :: repeat ExAny k) r K2).
    + pose proof (upper_none _ U) as E. rewrite E. pose proof (hits_all_any (length es) p c) as HR. set (HH := hits true p _ c) in *. clearbody HH. destruct p as [l|]; cbn [pe low].
      * destruct (0 <? c_compare c l) eqn:G; [split; [intros _; apply HR, cmp_gt; exact G|reflexivity]|].
        assert (N : ~ HH) by (intro Z; apply HR, cmp_gt in Z; congruence).
        destruct (length es) as [|m] eqn:Em; cbn [repeat ex_from]; [split; [discriminate|tauto]|].
        replace (ex_upper (repeat ExAny m)) with (@None comp) by (clear; induction m as [|m IHm]; [reflexivity|exact IHm]).
        split; [reflexivity|]. split; [exact N|]. exists [], l, m. reflexivity.
      * split; [intros; apply HR; exact I|reflexivity].
  - cbn [ex_from hits]. cbn [length] in L. pose proof (c_equals_iff_key c e V (X e (or_introl eq_refl))) as Q. destruct (c_equals c e) eqn:E.
    + split; [intros _; right; left; symmetry; apply Q; reflexivity|reflexivity].
    + assert (~ c_key e = c_key c) by (intro Z; symmetry in Z; apply Q in Z; congruence).
      specialize (IH es (Some e) c ltac:(lia) V ltac:(intros x Hx; apply X; right; exact Hx)). cbn [pe] in IH.
      destruct (ex_from (Some (ExComp e)) false es c).
      * rewrite IH. split; [tauto|]. intros [(Z & _)|[Z|Z]]; [discriminate|contradiction|exact Z].
      * destruct IH as (-> & I1 & I2). split; [reflexivity|]. split; [intros [(Z & _)|[Z|Z]]; [discriminate|contradiction|contradiction]|].
        apply (bad_tail_suffix p e [] es I2).
Qed.
(** Conversely a bad tail whose component is not excluded raises. *)
Lemma ex_from_bad : forall q l k c prev j, c_valid c -> ex_valid (q ++ [ExComp l]) ->
  match ex_from prev j (q ++ ExComp l :: repeat ExAny (S (S k))) c with Ok b => b = true | Err _ => True end.
Proof.
  induction q as [|[|e] q IH]; intros l k c prev j V X.
  - assert (U : ex_upper (repeat ExAny k) = None) by (clear; induction k as [|m IHm]; [reflexivity|exact IHm]).
    cbn [app ex_from repeat]. destruct (c_equals c l); [reflexivity|]. cbn [ex_upper]. rewrite U.
    destruct (0 <? c_compare c l); [reflexivity|exact I].
  - cbn [app ex_from]. assert (X' : ex_valid (q ++ [ExComp l])) by (intros x Hx; apply X; right; exact Hx).
    assert (U : exists u, ex_upper (q ++ ExComp l :: repeat ExAny (S (S k))) = Some u).
    { clear. induction q as [|[|e] q IHq]; cbn; [eexists; reflexivity|exact IHq|eexists; reflexivity]. }
    destruct j; [apply IH; assumption|]. destruct U as [u ->].
    destruct prev as [[|l']|]; cbn [rbind]; [exact I| |]; (match goal with |- context [if ?b then Ok true else _] => destruct b end; [reflexivity|apply IH; assumption]).
  - cbn [app ex_from]. destruct (c_equals c e); [reflexivity|]. apply IH; [exact V|]. intros x Hx. apply X. right. exact Hx.
Qed.
