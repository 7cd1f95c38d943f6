(** * Proofs about the validator configuration *)
From Verif Require Import Base BaseLemmas TlvModel NameModel NameSpec NameProofs UriModel BlobModel WireModel CmdModel CmdProps ValModel HierModel HierSpec HierProps RegexModel RegexSpec RegexProofs RegexProofs2 RegexProofs3 RegexProofs4 RegexProps InfoModel InfoSpec InfoProofs ConfModel ConfSpec.
From Coq Require Import Arith.
Local Open Scope res_scope.

(** ** Names *)
Lemma same_iff : forall a b, c_equals a b = true <-> same_comp a b.
Proof.
  intros a b. unfold c_equals, same_comp, blob_equals. destruct (Z.eqb_spec (c_type a) CT_OTHER) as [E|N].
  - rewrite !andb_true_iff, zlist_eqb_eq, !Z.eqb_eq. rewrite E. intuition congruence.
  - rewrite !andb_true_iff, zlist_eqb_eq, !Z.eqb_eq. intuition congruence.
Qed.
Lemma equals_iff : forall a b, n_equals a b = true <-> Forall2 same_comp a b.
Proof.
  induction a as [|x a IH]; intros [|y b]; cbn [n_equals].
  - split; [constructor|reflexivity].
  - split; [discriminate|intros X; inversion X].
  - split; [discriminate|intros X; inversion X].
  - rewrite andb_true_iff, IH, same_iff. split; [intros [A B]; constructor; assumption|intros X; inversion X; subst; auto].
Qed.
Lemma related_iff : forall r a b, checkNameRelation r a b = true <-> related r a b.
Proof.
  intros [| |] a b; cbn [checkNameRelation related].
  - apply equals_iff.
  - apply n_match_iff.
  - rewrite andb_true_iff. unfold n_isPrefixOf. rewrite n_match_iff. fold (vals a) (vals b). rewrite Z.ltb_lt. split; intros [P L]; (split; [exact P|]); destruct P as [s E].
    + intros X. rewrite X in E. apply (f_equal (@length _)) in E. rewrite app_length in E. assert (Ls : length (vals a) = length (vals b)) by (rewrite X; reflexivity). unfold vals in Ls. rewrite !map_length in Ls. unfold zlen in L. lia.
    + destruct s as [|v s]; [rewrite app_nil_r in E; congruence|]. apply (f_equal (@length _)) in E. rewrite app_length in E. unfold vals in E. rewrite !map_length in E. cbn [length] in E. unfold zlen. lia.
Qed.
Lemma related_false : forall r a b, checkNameRelation r a b = false <-> ~ related r a b.
Proof. intros. rewrite <- related_iff. destruct (checkNameRelation r a b); intuition congruence. Qed.
Lemma key_ok : forall k, (exists identity, key_of identity k /\ key_extractIdentity k = Ok identity) \/ ((forall identity, ~ key_of identity k) /\ key_extractIdentity k = Err ValueError).
Proof.
  intros k. unfold key_extractIdentity, key_isValid. destruct (2 <? zlen k) eqn:E.
  - destruct (last2 k) as (p & a & b & ->); [lia|]. assert (G : py_getitem (p ++ [a; b]) (-2) = Ok a) by exact (getitem_neg _ p a [b]). rewrite G. cbn [rbind]. destruct (c_equals a KEY) eqn:Ea.
    + left. exists p. split; [split; [intros ->; cbn in E; lia|]; exists a, b; split; [reflexivity|apply same_iff; exact Ea]|]. cbn [negb]. apply (getPrefix_app p [a; b]). discriminate.
    + right. split; [|reflexivity]. intros id (_ & c & kid & X & Sc). apply (f_equal (@rev comp)) in X. rewrite !rev_app_distr in X. cbn in X. injection X as _ X _. subst c. apply same_iff in Sc. change KEY with key_comp in Ea. congruence.
  - right. split; [|reflexivity]. intros id (Ni & c & kid & -> & _). destruct id as [|x id]; [congruence|]. cbn [app] in E. rewrite zlen_cons, zlen_app in E. pose proof (zlen_nonneg _ id). replace (zlen [c; kid]) with 2 in E by reflexivity. lia.
Qed.
Lemma key_of_fun : forall a b k, key_of a k -> key_of b k -> a = b.
Proof. intros a b k (_ & c & d & -> & _) (_ & c' & d' & E & _). apply (f_equal (@rev comp)) in E. rewrite !rev_app_distr in E. cbn in E. injection E as _ _ E. apply (f_equal (@rev comp)) in E. rewrite !rev_involutive in E. exact E. Qed.

Section C.
Variable re_groups : str -> res nat.
Variable re_search : str -> str -> option (list (option str)).
Hypothesis A : re_any re_groups re_search.
Notation shape := (shape re_groups).
Notation x_matches := (x_matches re_search).
Notation captured := (captured re_groups re_search).
Notation f_holds := (f_holds re_search).
Notation passes := (passes re_groups re_search).
Notation refuses := (refuses re_groups re_search).
Notation rule_matches := (rule_matches re_search).
Notation checked := (checked re_groups re_search).
Notation decided := (decided re_groups re_search).
Notation f_ordinary := (f_ordinary re_search).
Notation c_ordinary := (c_ordinary re_groups re_search).
Notation f_match := (f_match re_search).
Notation k_check := (k_check re_search).

(** ** The objects that stand for expressions, filters, checkers and rules *)
Definition rep_x (x : top) (s : regex) : Prop := wf re_groups (x_items s) /\ shape (x_start s) (x_items s) (x_stop s) x.
Inductive rep_f : filter -> sfilter -> Prop :=
  | RF_name : forall n r, rep_f (FName n r) (SName n r)
  | RF_regex : forall x s, rep_x x s -> rep_f (FRegex x) (SRegex s).
Inductive rep_c : checker -> schecker -> Prop :=
  | RC_name : forall n r, rep_c (KName n r) (CName n r)
  | RC_regex : forall x s, rep_x x s -> rep_c (KRegex x) (CRegex s)
  | RC_hyper : forall p sp pe k sk ke r, rep_x p sp -> rep_x k sk -> rep_c (KHyper p pe k ke r) (CHyper sp pe sk ke r).
Definition rep_r (r : rule) (s : srule) : Prop :=
  r_interest r = s_interest s /\ Forall2 rep_f (r_filters r) (s_filters s) /\ Forall2 rep_c (r_checkers r) (s_checkers s) /\ s_checkers s <> [].

Lemma x_step : forall x s n, rep_x x s -> exists x' b, top_match re_search x n = (x', b) /\ rep_x x' s /\ (b = true -> x_matches s n /\
    exists ref, captured s n ref /\ (forall i c, ref_result x' i = Ok c -> 0 <= i -> ref i = c) /\ (forall i, 0 <= i <= Z.of_nat (nrefs re_groups (x_items s)) -> ref_result x' i = Ok (ref i))) /\
  (x_strict re_search s -> zlen n <= 32767 -> b = false -> ~ x_matches s n).
Proof.
  intros x s n [W Sh]. destruct A as [A1 A2]. pose proof (shape_match re_groups re_search _ _ _ x n Sh) as Sh'. pose proof (match_sound re_groups re_search A1 A2 _ _ _ x n W Sh) as M. pose proof (fun St L => match_complete re_groups re_search A1 A2 _ _ _ x n W St L Sh) as Mc. destruct (top_match re_search x n) as [x' b] eqn:E. cbn [fst snd] in *. exists x', b. split; [reflexivity|]. split; [split; assumption|]. split.
  - intros Hb. destruct (M Hb) as (u & v & w & g & En & Hu & Hw & Cg & R0 & Rg & Ri & Re). split; [exists u, v, w; split; [exact En|]; split; [eapply caps_lang; exact Cg|auto]|].
    exists (fun i => match ref_result x' i with Ok c => c | Err _ => [] end). split; [|split].
    + exists u, v, w, g. split; [exact En|]. split; [exact Hu|]. split; [exact Hw|]. split; [exact Cg|]. rewrite R0. split; [reflexivity|]. intros j c I. rewrite (Rg j c I). reflexivity.
    + intros i c Hi _. rewrite Hi. reflexivity.
    + intros i Hi. destruct (Z.eq_dec i 0) as [->|N]; [rewrite R0; reflexivity|]. destruct (Ri i) as [c Hc]; [lia|]. rewrite Hc. reflexivity.
  - intros St L Hb X. specialize (Mc St L X). congruence.
Qed.
Definition shown (isI : bool) (n : name) : name := if isI then without2 n else n.
Lemma getPrefix2 : forall n, 2 <= zlen n -> n_getPrefix n (-2) = Ok (without2 n).
Proof. intros n L. destruct (last2 n L) as (p & a & b & ->). rewrite without2_app. apply (getPrefix_app p [a; b]). discriminate. Qed.
Lemma firstn_le_length_aux : forall (X : Type) m (l : list X), (length (firstn m l) <= length l)%nat.
Proof. intros. rewrite firstn_length. apply Nat.le_min_r. Qed.
Lemma shown_len : forall isI n, zlen (shown isI n) <= zlen n.
Proof. intros [|] n; [|apply Z.le_refl]. unfold shown, without2, zlen. apply Nat2Z.inj_le. apply firstn_le_length_aux. Qed.
Lemma f_name_step : forall f s n, rep_f f s -> exists f' b, f_matchName re_search f n = (f', b) /\ rep_f f' s /\ (b = true -> f_holds n s) /\ (f_ordinary s -> zlen n <= 32767 -> b = false -> ~ f_holds n s).
Proof.
  intros f s n H. destruct H as [m r|x s R]; cbn [f_matchName].
  - exists (FName m r), (checkNameRelation r m n). split; [reflexivity|]. split; [constructor|]. split; [apply related_iff|intros _ _; apply related_false].
  - destruct (x_step x s n R) as (x' & b & E & R' & M & N). rewrite E. exists (FRegex x'), b. split; [reflexivity|]. split; [constructor; exact R'|]. split; [intros Hb; exact (proj1 (M Hb))|exact N].
Qed.
Lemma f_step : forall f s isI n, rep_f f s -> (isI = true -> 2 <= zlen n) -> exists f' b, f_match f isI n = (f', Ok b) /\ rep_f f' s /\ (b = true -> f_holds (shown isI n) s) /\ (f_ordinary s -> zlen n <= 32767 -> b = false -> ~ f_holds (shown isI n) s).
Proof.
  intros f s isI n H L. destruct (f_name_step f s (shown isI n) H) as (f' & b & E & R & M & N). pose proof (shown_len isI n) as Ls. unfold ConfModel.f_match. destruct isI; cbn [shown] in *.
  - specialize (L eq_refl). replace (zlen n <? 2) with false by lia. rewrite getPrefix2 by exact L. rewrite E. exists f', b. split; [reflexivity|]. split; [exact R|]. split; [exact M|]. intros O Ln. apply N; [exact O|lia].
  - rewrite E. exists f', b. auto.
Qed.

(** ** Expansion *)
Lemma span_inv : forall t a b, span_digits t = (a, b) -> t = a ++ b /\ Forall (fun c => 48 <= c <= 57) a.
Proof.
  induction t as [|c t IH]; intros a b E; cbn [span_digits] in E; [injection E as <- <-; split; [reflexivity|constructor]|]. destruct (is_digit c) eqn:D; [|injection E as <- <-; split; [reflexivity|constructor]]. destruct (span_digits t) as [a' b'] eqn:F. cbn [fst snd] in E. injection E as <- <-. destruct (IH _ _ eq_refl) as [-> Fa]. split; [reflexivity|]. constructor; [unfold is_digit in D; lia|exact Fa].
Qed.
Lemma text_inv : forall t d a b, expand_text d t = Ok (a, b) -> sub_pattern 60 62 d t = Ok (a, b).
Proof.
  induction t as [|c t IH]; intros d a b E; cbn [expand_text sub_pattern] in *; [discriminate E|]. destruct t as [|c' t]; [discriminate E|]. destruct (if c =? 62 then _ else _) as [|m]; [exact E|]. destruct (expand_text (S m) (c' :: t)) as [[a' b']|e] eqn:F; [|discriminate E]. cbn [rbind fst snd] in E. rewrite (IH _ _ _ F). exact E.
Qed.
Lemma expand_inv : forall fuel x t out, expand_loop fuel x t = Ok out -> exists ps, Forall p_ok ps /\ t = flat_map p_text ps /\ p_values (ref_result x) ps = Ok out.
Proof.
  induction fuel as [|f IH]; intros x t out E.
  - destruct t as [|c t]; cbn [expand_loop] in E; [injection E as <-; exists []; auto|discriminate E].
  - destruct t as [|c t]; cbn [expand_loop] in E; [injection E as <-; exists []; auto|]. destruct (Z.eqb_spec c 92) as [->|N1].
    + destruct t as [|c t]; [discriminate E|]. destruct (span_digits (c :: t)) as [a b] eqn:Sp. cbn [fst snd] in E. destruct a as [|d a]; [discriminate E|]. destruct (ref_result x (int_digits (d :: a))) as [v|e] eqn:R; [|discriminate E]. cbn [rbind] in E. destruct (expand_loop f x b) as [r|e] eqn:Er; [|discriminate E]. cbn [rbind] in E. injection E as <-. destruct (IH _ _ _ Er) as (ps & F & -> & V). destruct (span_inv _ _ _ Sp) as [Et Fd].
      exists (Ref (d :: a) :: ps). split; [constructor; [split; [discriminate|exact Fd]|exact F]|]. split; [cbn [flat_map p_text]; rewrite Et; reflexivity|]. cbn [p_values p_value]. rewrite <- int_decimal, R, V. reflexivity.
    + destruct (Z.eqb_spec c 60) as [->|N2]; [|discriminate E]. destruct t as [|c t]; [discriminate E|]. destruct (expand_text 1 (c :: t)) as [[a b]|e] eqn:Ex; [|discriminate E]. cbn [rbind fst snd] in E. apply text_inv in Ex. apply sub_pattern_inv in Ex; [|discriminate]. destruct Ex as (t' & -> & Et & C1 & C2). rewrite removelast_last in E. destruct (utf8_encode t') as [u|e] eqn:Eu; [|discriminate E]. cbn [rbind] in E. destruct (expand_loop f x b) as [r|e] eqn:Er; [|discriminate E]. cbn [rbind] in E. injection E as <-. destruct (IH _ _ _ Er) as (ps & F & -> & V).
      exists (Txt t' :: ps). split; [constructor; [|exact F]; split; [split; [lia|intros p q Ep; specialize (C2 p q Ep); lia]|eauto]|]. split; [cbn [flat_map p_text]; rewrite Et, comp_text_shape; reflexivity|]. cbn [p_values p_value]. rewrite Eu, V. reflexivity.
Qed.
Lemma decimal_nonneg : forall t, Forall (fun c => 48 <= c <= 57) t -> 0 <= decimal t.
Proof.
  intros t F. unfold decimal. assert (G : forall t a, 0 <= a -> Forall (fun c => 48 <= c <= 57) t -> 0 <= fold_left (fun n c => n * 10 + (c - 48)) t a) by (induction t0 as [|c t0 IH]; intros a La Fa; [exact La|]; inversion Fa; subst; cbn [fold_left]; apply IH; [lia|assumption]). apply G; [lia|exact F].
Qed.
Lemma values_expansion : forall x ref ps out, (forall i c, ref_result x i = Ok c -> 0 <= i -> ref i = c) -> Forall p_ok ps -> p_values (ref_result x) ps = Ok out -> out = expansion ref ps.
Proof.
  intros x ref ps. induction ps as [|p ps IH]; intros out R F E; [injection E as <-; reflexivity|]. inversion F as [|? ? Hp F']; subst. cbn [p_values] in E. destruct (p_value (ref_result x) p) as [v|e] eqn:Ev; [|discriminate E]. destruct (p_values (ref_result x) ps) as [r|e] eqn:Er; [|discriminate E]. injection E as <-. cbn [expansion flat_map]. rewrite <- (IH r R F' eq_refl) at 1. f_equal. destruct p as [i|t]; cbn [p_value p_ok] in *.
  - symmetry. apply R; [exact Ev|]. apply decimal_nonneg. apply Hp.
  - unfold text_comp. destruct (utf8_encode t) as [b|e]; [|discriminate Ev]. injection Ev as <-. reflexivity.
Qed.
Lemma values_ok : forall x ref m ps, (forall i, 0 <= i <= m -> ref_result x i = Ok (ref i)) -> Forall p_ok ps -> (forall i, In (Ref i) ps -> decimal i <= m) -> p_values (ref_result x) ps = Ok (expansion ref ps).
Proof.
  intros x ref m ps R F B. induction ps as [|p ps IH]; [reflexivity|]. inversion F as [|? ? Hp F']; subst. cbn [p_values expansion flat_map]. fold (expansion ref ps). rewrite (IH F') by (intros i I; apply B; right; exact I). destruct p as [i|t]; cbn [p_value p_ok] in *.
  - rewrite R; [reflexivity|]. split; [apply decimal_nonneg; apply Hp|apply B; left; reflexivity].
  - destruct Hp as [_ [b Eb]]. unfold text_comp. rewrite Eb. reflexivity.
Qed.

(** ** Checkers *)
Lemma c_name_step : forall c s n k, rep_c c s -> exists c' o, k_checkNames re_search c n k = (c', o) /\ rep_c c' s /\ o <> Ok Silent /\ (o = Ok Pass -> passes n k s) /\
  (c_ordinary s -> zlen n <= 32767 -> zlen k <= 32767 -> (o = Ok Fail -> refuses n k s) /\ (forall e, o = Err e -> e = ValueError /\ chokes k s)).
Proof.
  intros c s n k H. destruct H as [m r|x s R|p sp pe kx sk ke r Rp Rk]; cbn [k_checkNames].
  - eexists. eexists. split; [reflexivity|]. split; [constructor|]. destruct (key_ok k) as [(id & K & E)|(K & E)]; rewrite E; cbn [rbind].
    + destruct (checkNameRelation r m id) eqn:Er; cbn [of_bool].
      * apply related_iff in Er. split; [discriminate|]. split; [intros _; exists id; auto|]. intros _ _ _. split; [discriminate|intros e X; discriminate X].
      * apply related_false in Er. split; [discriminate|]. split; [discriminate|]. intros _ _ _. split; [intros _; exists id; auto|intros e X; discriminate X].
    + split; [discriminate|]. split; [discriminate|]. intros _ _ _. split; [discriminate|]. intros e X. injection X as <-. auto.
  - destruct (x_step x s k R) as (x' & b & E & R' & M & N). rewrite E. exists (KRegex x'), (Ok (of_bool b)). split; [reflexivity|]. split; [constructor; exact R'|]. destruct b; cbn [of_bool].
    + split; [discriminate|]. split; [intros _; exact (proj1 (M eq_refl))|]. intros _ _ _. split; [discriminate|intros e X; discriminate X].
    + split; [discriminate|]. split; [discriminate|]. intros O _ L. split; [intros _; apply N; auto|intros e X; discriminate X].
  - destruct (x_step p sp n Rp) as (p' & b & E & Rp' & M & N). rewrite E. destruct b; cbn [negb].
    2: { eexists. eexists. split; [reflexivity|]. split; [constructor; assumption|]. split; [discriminate|]. split; [discriminate|]. intros (Op & _) Ln _. split; [intros _; left; apply N; auto|intros e X; discriminate X]. }
    destruct (x_step kx sk k Rk) as (kx' & b & E' & Rk' & M' & N'). rewrite E'. destruct b; cbn [negb].
    2: { eexists. eexists. split; [reflexivity|]. split; [constructor; assumption|]. split; [discriminate|]. split; [discriminate|]. intros (_ & Ok_ & _) _ Lk. split; [intros _; right; left; apply N'; auto|intros e X; discriminate X]. }
    destruct (M eq_refl) as (_ & rp & Cp & Up & Vp). destruct (M' eq_refl) as (_ & rk & Ck & Uk & Vk). eexists. eexists. split; [reflexivity|]. split; [constructor; assumption|].
    assert (X : forall nk np, expand kx' ke = Ok nk -> expand p' pe = Ok np -> expands rp pe np /\ expands rk ke nk).
    { intros nk np Ek Ep. apply expand_inv in Ek, Ep. destruct Ek as (ps & F & Et & V), Ep as (ps' & F' & Et' & V'). split; [exists ps'|exists ps]; (split; [assumption|]; split; [assumption|]; eapply values_expansion; [|eassumption|eassumption]; assumption). }
    destruct (expand kx' ke) as [nk|e] eqn:Ek; cbn [rbind]; [destruct (expand p' pe) as [np|e] eqn:Ep; cbn [rbind]|].
    + destruct (X nk np eq_refl eq_refl) as [Xp Xk]. destruct (checkNameRelation r nk np) eqn:Er; cbn [of_bool].
      * apply related_iff in Er. split; [discriminate|]. split; [intros _; exists rp, rk, np, nk; auto 6|]. intros _ _ _. split; [discriminate|intros e Y; discriminate Y].
      * apply related_false in Er. split; [discriminate|]. split; [discriminate|]. intros _ _ _. split; [intros _; right; right; exists rp, rk, np, nk; auto 6|intros e Y; discriminate Y].
    + split; [discriminate|]. split; [discriminate|]. intros (_ & _ & (ps & F & Ne & -> & B) & _) _ _. exfalso. rewrite C57_expand in Ep by assumption. rewrite (values_ok p' rp _ ps Vp F B) in Ep. discriminate Ep.
    + split; [discriminate|]. split; [discriminate|]. intros (_ & _ & _ & (ps & F & Ne & -> & B)) _ _. exfalso. rewrite C57_expand in Ek by assumption. rewrite (values_ok kx' rk _ ps Vk F B) in Ek. discriminate Ek.
Qed.
Lemma c_step : forall c s isI n k, rep_c c s -> (isI = true -> 2 <= zlen n) -> exists c' o, k_check c isI n k = (c', o) /\ rep_c c' s /\ o <> Ok Silent /\ (o = Ok Pass -> passes (shown isI n) k s) /\
  (c_ordinary s -> zlen n <= 32767 -> zlen k <= 32767 -> (o = Ok Fail -> refuses (shown isI n) k s) /\ (forall e, o = Err e -> e = ValueError /\ chokes k s)).
Proof.
  intros c s isI n k H L. destruct (c_name_step c s (shown isI n) k H) as (c' & o & E & R & Ns & P & O). pose proof (shown_len isI n) as Ls. unfold ConfModel.k_check. exists c', o. split.
  - destruct isI; cbn [shown] in *; [|exact E]. specialize (L eq_refl). replace (zlen n <? 2) with false by lia. rewrite getPrefix2 by exact L. exact E.
  - split; [exact R|]. split; [exact Ns|]. split; [exact P|]. intros Oc Ln Lk. apply O; [exact Oc|lia|exact Lk].
Qed.

(** ** Rules *)
Lemma any_step : forall l sl isI n, Forall2 rep_f l sl -> (isI = true -> 2 <= zlen n) -> exists l' b, match_any re_search l isI n = (l', Ok b) /\ Forall2 rep_f l' sl /\ (b = true -> Exists (f_holds (shown isI n)) sl) /\ (Forall f_ordinary sl -> zlen n <= 32767 -> b = false -> ~ Exists (f_holds (shown isI n)) sl).
Proof.
  intros l sl isI n H L. induction H as [|f s l sl Hf H IH]; cbn [match_any].
  - exists [], false. split; [reflexivity|]. split; [constructor|]. split; [discriminate|]. intros _ _ _ X. inversion X.
  - destruct (f_step f s isI n Hf L) as (f' & b & E & R & M & N). rewrite E. destruct b.
    + exists (f' :: l), true. split; [reflexivity|]. split; [constructor; assumption|]. split; [intros _; left; apply M; reflexivity|]. discriminate.
    + destruct IH as (l' & b & E' & R' & M' & N'). rewrite E'. exists (f' :: l'), b. split; [reflexivity|]. split; [constructor; assumption|]. split; [intros Hb; right; apply M'; exact Hb|]. intros O Ln Hb X. inversion O as [|? ? O1 O2]; subst. inversion X as [? ? X1|? ? X1]; subst; [exact (N O1 Ln eq_refl X1)|exact (N' O2 Ln eq_refl X1)].
Qed.
Lemma match_step : forall r s isI n, rep_r r s -> s_interest s = isI -> (isI = true -> 2 <= zlen n) -> exists r' b, r_match re_search r isI n = (r', Ok b) /\ rep_r r' s /\ (b = true -> rule_matches (shown isI n) s) /\ (Forall f_ordinary (s_filters s) -> zlen n <= 32767 -> b = false -> ~ rule_matches (shown isI n) s).
Proof.
  intros r s isI n (Ri & Rf & Rc & Nc) Si L. unfold r_match. rewrite Ri, Si, Bool.eqb_reflx. cbn [negb]. destruct (any_step _ _ isI n Rf L) as (l' & b & E & R & M & N). destruct (r_filters r) as [|f l] eqn:Ef.
  - inversion Rf as [Z1 Z2|]; subst. exists r, true. split; [reflexivity|]. split; [split; [exact Ri|]; split; [rewrite Ef; exact Rf|]; split; assumption|]. split; [intros _; left; symmetry; assumption|discriminate].
  - rewrite E. eexists. exists b. split; [reflexivity|]. split; [split; [symmetry; exact Si|]; split; [exact R|]; split; assumption|]. split; [intros Hb; right; apply M; exact Hb|]. intros O Ln Hb [X|X]; [rewrite X in Rf; inversion Rf|exact (N O Ln Hb X)].
Qed.
Lemma all_step : forall l sl isI n k o0, Forall2 rep_c l sl -> (isI = true -> 2 <= zlen n) -> o0 <> Fail -> exists l' o, check_all re_search l isI n k o0 = (l', o) /\ Forall2 rep_c l' sl /\ (o = Ok Silent -> sl = [] /\ o0 = Silent) /\ (o = Ok Pass -> Forall (passes (shown isI n) k) sl) /\
  (Forall c_ordinary sl -> zlen n <= 32767 -> zlen k <= 32767 -> (o = Ok Fail -> checked sl (shown isI n) k Refuse) /\ (forall e, o = Err e -> e = ValueError /\ checked sl (shown isI n) k Choke)).
Proof.
  intros l sl isI n k o0 H L. revert o0. induction H as [|c s l sl Hc H IH]; intros o0 N0; cbn [check_all].
  - exists [], (Ok o0). split; [reflexivity|]. split; [constructor|]. split; [intros X; injection X as ->; auto|]. split; [intros _; constructor|]. intros _ _ _. split; [intros X; injection X as ->; congruence|intros e X; discriminate X].
  - destruct (c_step c s isI n k Hc L) as (c' & o & E & R & Ns & P & O). rewrite E. destruct o as [[| |]|e].
    + destruct (IH Pass) as (l' & o & E' & R' & Sl & P' & O'); [discriminate|]. rewrite E'. exists (c' :: l'), o. split; [reflexivity|]. split; [constructor; assumption|]. specialize (P eq_refl). split; [intros X; destruct (Sl X) as [_ Y]; discriminate Y|]. split; [intros X; constructor; [exact P|exact (P' X)]|].
      intros Oc Ln Lk. inversion Oc as [|? ? O1 O2]; subst. destruct (O' O2 Ln Lk) as [Of Oe]. split.
      * intros X. destruct (Of X) as (a & c0 & b & -> & Fa & Rf). exists (s :: a), c0, b. split; [reflexivity|]. split; [constructor; assumption|exact Rf].
      * intros e X. destruct (Oe e X) as (Ee & a & c0 & b & -> & Fa & Rf). split; [exact Ee|]. exists (s :: a), c0, b. split; [reflexivity|]. split; [constructor; assumption|exact Rf].
    + exists (c' :: l), (Ok Fail). split; [reflexivity|]. split; [constructor; assumption|]. split; [discriminate|]. split; [discriminate|]. intros Oc Ln Lk. inversion Oc as [|? ? O1 O2]; subst. split; [|intros e X; discriminate X]. intros _. exists [], s, sl. split; [reflexivity|]. split; [constructor|]. exact (proj1 (O O1 Ln Lk) eq_refl).
    + congruence.
    + exists (c' :: l), (Err e). split; [reflexivity|]. split; [constructor; assumption|]. split; [discriminate|]. split; [discriminate|]. intros Oc Ln Lk. inversion Oc as [|? ? O1 O2]; subst. split; [discriminate|]. intros e' X. injection X as <-. destruct (proj2 (O O1 Ln Lk) e eq_refl) as [Ee Ch]. split; [exact Ee|]. exists [], s, sl. split; [reflexivity|]. split; [constructor|exact Ch].
Qed.
Lemma rules_step : forall l sl isI n k, Forall2 rep_r l sl -> Forall (fun s => s_interest s = isI) sl -> (isI = true -> 2 <= zlen n) -> exists l' o, apply_rules re_search l isI n k = (l', o) /\ Forall2 rep_r l' sl /\ o <> Ok Silent /\
  (o = Ok Pass -> exists s, In s sl /\ rule_matches (shown isI n) s /\ s_checkers s <> [] /\ Forall (passes (shown isI n) k) (s_checkers s)) /\
  (Forall (fun s => Forall f_ordinary (s_filters s) /\ Forall c_ordinary (s_checkers s)) sl -> zlen n <= 32767 -> zlen k <= 32767 ->
     (o = Ok Pass -> decided sl (shown isI n) k Allow) /\ (o = Ok Fail -> decided sl (shown isI n) k Refuse) /\ (forall e, o = Err e -> e = ValueError /\ decided sl (shown isI n) k Choke)).
Proof.
  intros l sl isI n k H F L. induction H as [|r s l sl Hr H IH]; cbn [apply_rules].
  - exists [], (Ok Fail). split; [reflexivity|]. split; [constructor|]. split; [discriminate|]. split; [discriminate|]. intros _ _ _. split; [discriminate|]. split; [intros _; left; split; [reflexivity|constructor]|intros e X; discriminate X].
  - inversion F as [|? ? F1 F2]; subst. destruct (match_step r s (s_interest s) n Hr eq_refl L) as (r' & b & E & R & M & N). rewrite E. destruct b.
    + unfold r_check. destruct R as (Ri & Rf & Rc & Nc). rewrite Ri, Bool.eqb_reflx. cbn [negb]. destruct (all_step _ _ (s_interest s) n k Silent Rc L) as (l' & o & E' & R' & Sl & P & O); [discriminate|]. rewrite E'. eexists. exists o. split; [reflexivity|]. specialize (M eq_refl).
      split; [constructor; [split; [reflexivity|]; split; [exact Rf|]; split; [exact R'|exact Nc]|exact H]|]. split; [intros X; destruct (Sl X) as [Y _]; congruence|]. split; [intros X; exists s; split; [left; reflexivity|]; split; [exact M|]; split; [exact Nc|exact (P X)]|].
      intros Oc Ln Lk. inversion Oc as [|? ? [O1 O1'] O2]; subst. destruct (O O1' Ln Lk) as [Of Oe]. assert (D : forall d, checked (s_checkers s) (shown (s_interest s) n) k d -> decided (s :: sl) (shown (s_interest s) n) k d) by (intros d Cd; right; exists [], s, sl; split; [reflexivity|]; split; [constructor|]; split; [exact M|exact Cd]).
      split; [intros X; apply D; exact (P X)|]. split; [intros X; apply D; exact (Of X)|]. intros e X. destruct (Oe e X) as [Ee Cd]. split; [exact Ee|apply D; exact Cd].
    + destruct (IH F2) as (l' & o & E' & R' & Ns & P & O). rewrite E'. exists (r' :: l'), o. split; [reflexivity|]. split; [constructor; assumption|]. split; [exact Ns|]. split; [intros X; destruct (P X) as (s' & I & Y); exists s'; split; [right; exact I|exact Y]|].
      intros Oc Ln Lk. inversion Oc as [|? ? [O1 O1'] O2]; subst. specialize (N O1 Ln eq_refl). destruct (O O2 Ln Lk) as (Oa & Of & Oe).
      assert (D : forall d, decided sl (shown (s_interest s) n) k d -> decided (s :: sl) (shown (s_interest s) n) k d). { intros d [[-> Fd]|(a & s' & b & -> & Fa & Ms & Cd)]; [left; split; [reflexivity|constructor; assumption]|]. right. exists (s :: a), s', b. split; [reflexivity|]. split; [constructor; assumption|]. auto. }
      split; [intros X; apply D; exact (Oa X)|]. split; [intros X; apply D; exact (Of X)|]. intros e X. destruct (Oe e X) as [Ee Cd]. split; [exact Ee|apply D; exact Cd].
Qed.

(** ** The policy *)
Definition of_kind (isI : bool) (cfg : list srule) : list srule := List.filter (fun r => Bool.eqb (s_interest r) isI) cfg.
Definition rep_p (c : policy) (cfg : list srule) : Prop := Forall2 rep_r (c_data c) (of_kind false cfg) /\ Forall2 rep_r (c_interest c) (of_kind true cfg).
Lemma kind_all : forall isI cfg, Forall (fun s => s_interest s = isI) (of_kind isI cfg).
Proof. intros isI cfg. apply Forall_forall. intros s I. apply filter_In in I. apply Bool.eqb_prop. apply I. Qed.
Lemma interest_len : forall n k, p_locator (PInterest n) = Some k -> 2 <= zlen n.
Proof. intros n k E. cbn [p_locator] in E. unfold keyLocatorName in E. destruct (zlen n <? 2) eqn:L; [discriminate E|lia]. Qed.
Lemma conf_step : forall cbp c cfg p, rep_p c cfg -> let r := conf_check re_search cbp c p in rep_p (fst r) cfg /\ c_bypass (fst r) = c_bypass c /\ c_configured (fst r) = c_configured c /\
  (c_bypass c = true -> snd r = VContinue None) /\
  (c_bypass c = false -> p_locator p = None -> snd r = VFail) /\
  (c_bypass c = false -> forall k, p_locator p = Some k -> exists o, snd r = of_outcome cbp k o /\ o <> Ok Silent /\
     (o = Ok Pass -> allowed re_groups re_search cfg p k) /\
     (ordinary re_groups re_search cfg -> zlen (p_name p) <= 32767 -> zlen k <= 32767 ->
        (o = Ok Pass -> decided (rules_for cfg p) (examined p) k Allow) /\ (o = Ok Fail -> decided (rules_for cfg p) (examined p) k Refuse) /\ (forall e, o = Err e -> e = ValueError /\ decided (rules_for cfg p) (examined p) k Choke))).
Proof.
  intros cbp c cfg p [Rd Ri]. cbv zeta. unfold conf_check. destruct (c_bypass c) eqn:B.
  - cbn [fst snd]. split; [split; assumption|]. split; [exact B|]. split; [reflexivity|]. split; [reflexivity|]. split; discriminate.
  - destruct (p_locator p) as [k|] eqn:Ek; [|cbn [fst snd]; split; [split; assumption|]; split; [exact B|]; split; [reflexivity|]; split; [discriminate|]; split; [reflexivity|]; intros _ k X; discriminate X].
    assert (Or : forall isI, ordinary re_groups re_search cfg -> Forall (fun s => Forall f_ordinary (s_filters s) /\ Forall c_ordinary (s_checkers s)) (of_kind isI cfg)) by (intros isI O; unfold ordinary in O; rewrite Forall_forall in *; intros s I; apply filter_In in I; apply O; apply I).
    destruct p as [d|n].
    + destruct (rules_step (c_data c) (of_kind false cfg) false (p_name (PData d)) k Rd (kind_all _ _)) as (l' & o & E & R & Ns & P & O); [discriminate|]. rewrite E. cbn [fst snd c_data c_interest c_bypass c_configured]. split; [split; assumption|]. split; [reflexivity|]. split; [reflexivity|]. split; [discriminate|]. split; [discriminate|]. intros _ k' X. injection X as <-. exists o. split; [reflexivity|]. split; [exact Ns|]. split.
      * intros X. destruct (P X) as (s & I & Y). apply filter_In in I. exists s. split; [apply I|]. split; [apply Bool.eqb_prop; apply I|exact Y].
      * intros Oc Ln Lk. apply O; [apply Or; exact Oc|exact Ln|exact Lk].
    + destruct (rules_step (c_interest c) (of_kind true cfg) true (p_name (PInterest n)) k Ri (kind_all _ _)) as (l' & o & E & R & Ns & P & O); [intros _; exact (interest_len n k Ek)|]. rewrite E. cbn [fst snd c_data c_interest c_bypass c_configured]. split; [split; assumption|]. split; [reflexivity|]. split; [reflexivity|]. split; [discriminate|]. split; [discriminate|]. intros _ k' X. injection X as <-. exists o. split; [reflexivity|]. split; [exact Ns|]. split.
      * intros X. destruct (P X) as (s & I & Y). apply filter_In in I. exists s. split; [apply I|]. split; [apply Bool.eqb_prop; apply I|exact Y].
      * intros Oc Ln Lk. apply O; [apply Or; exact Oc|exact Ln|exact Lk].
Qed.
Lemma warm_rep : forall cbp ps c cfg, rep_p c cfg -> rep_p (conf_warm re_search cbp c ps) cfg /\ c_bypass (conf_warm re_search cbp c ps) = c_bypass c /\ c_configured (conf_warm re_search cbp c ps) = c_configured c.
Proof.
  intros cbp ps. induction ps as [|p ps IH]; intros c cfg H; [cbn; auto|]. unfold conf_warm in *. cbn [fold_left]. destruct (conf_step cbp c cfg p H) as (R & B & Cf & _). destruct (IH _ cfg R) as (R' & B' & C'). split; [exact R'|]. split; congruence.
Qed.

End C.
