(** * Properties C56 to C58: NDN regular expressions *)
From Verif Require Import Base BaseLemmas NameModel NameSpec NameProofs UriModel UriProofs BlobModel RegexModel RegexSpec RegexProofs RegexProofs2 RegexProofs3 RegexProofs4.
From Coq Require Import Arith.
Local Open Scope res_scope.

(** ** C56 *)
(** the texts which the constructor takes *)
Theorem C56_accepts : forall re_groups re_search t, re_any re_groups re_search ->
  ((exists x, top_new re_groups t = Ok x) <-> exists start e stop, wf re_groups e /\ (start = true \/ e <> []) /\ t = top_text start e stop).
Proof.
  intros rg rs t [A1 A2]. split.
  - intros [x H]. eapply top_inv. exact H.
  - intros (start & e & stop & W & N & ->). destruct (top_ok rg A1 start e stop W N) as (x & H & _). eauto.
Qed.
Theorem C56_errors : forall re_groups t err, top_new re_groups t = Err err ->
  (err = IndexError /\ (t = [] \/ t = [36])) \/ (t <> [] /\ t <> [36] /\ (err = OtherError \/ exists x, re_groups x = Err err)).
Proof. intros rg t err H. eapply top_err. exact H. Qed.
(** a match is right, whatever was matched before with the object *)
Theorem C56_sound : forall re_groups re_search start e stop x ns n, re_any re_groups re_search -> wf re_groups e -> (start = true \/ e <> []) ->
  top_new re_groups (top_text start e stop) = Ok x ->
  snd (top_match re_search (fold_left (fun x n => fst (top_match re_search x n)) ns x) n) = true -> matches re_search start e stop n.
Proof.
  intros rg rs start e stop x ns n [A1 A2] W N H M. destruct (top_ok rg A1 start e stop W N) as (x' & H' & Sh & _). rewrite H in H'. injection H' as <-.
  pose proof (shape_run rg rs start e stop ns x Sh) as Sh'. destruct (match_sound rg rs A1 A2 _ _ _ _ _ W Sh' M) as (u & v & w & g & -> & Hu & Hw & C & _). exists u, v, w. split; [reflexivity|]. split; [eapply caps_lang; exact C|auto].
Qed.
(** and every match is found, when no repeated group matches the empty name *)
Theorem C56_match : forall re_groups re_search start e stop x ns n, re_any re_groups re_search -> wf re_groups e -> (start = true \/ e <> []) -> strict re_search e -> zlen n <= 32767 ->
  top_new re_groups (top_text start e stop) = Ok x ->
  (snd (top_match re_search (fold_left (fun x n => fst (top_match re_search x n)) ns x) n) = true <-> matches re_search start e stop n).
Proof.
  intros rg rs start e stop x ns n A W N Ss L H. split; [eapply C56_sound; eassumption|]. destruct A as [A1 A2]. destruct (top_ok rg A1 start e stop W N) as (x' & H' & Sh & _). rewrite H in H'. injection H' as <-.
  intros M. eapply match_complete; try eassumption. apply shape_run. exact Sh.
Qed.
(** the text determines the expression up to its language *)
Theorem C56_text : forall re_groups re_search start e stop start' e' stop' n, re_any re_groups re_search -> wf re_groups e -> wf re_groups e' -> (start = true \/ e <> []) -> strict re_search e -> strict re_search e' -> zlen n <= 32767 ->
  top_text start e stop = top_text start' e' stop' -> (start' = true \/ e' <> []) -> (matches re_search start e stop n <-> matches re_search start' e' stop' n).
Proof.
  intros rg rs start e stop start' e' stop' n A W W' N Ss Ss' L E N'. destruct A as [A1 A2]. destruct (top_ok rg A1 start e stop W N) as (x & H & _). rewrite <- (C56_match rg rs start e stop x [] n (conj A1 A2) W N Ss L H). rewrite E in H. apply (C56_match rg rs start' e' stop' x [] n (conj A1 A2) W' N' Ss' L H).
Qed.

(** a small regular expression engine: literals, ".*" and "(.*)" *)
Fixpoint is_prefix (t s : str) : bool := match t, s with [], _ => true | c :: t', d :: s' => (c =? d) && is_prefix t' s' | _, [] => false end.
Fixpoint is_sub (t s : str) : bool := is_prefix t s || match s with [] => false | _ :: s' => is_sub t s' end.
Definition toy_groups (t : str) : res nat := if zlist_eqb t [40; 46; 42; 41] then Ok 1%nat else Ok 0%nat.
Definition toy_search (t s : str) : option (list (option str)) :=
  if zlist_eqb t [46; 42] then Some [] else if zlist_eqb t [40; 46; 42; 41] then Some [Some s] else if is_sub t s then Some [] else None.
Lemma toy_any : re_any toy_groups toy_search.
Proof. split; [reflexivity|]. intros s. discriminate. Qed.
Lemma balanced_none : forall l r t, ~ In l t -> ~ In r t -> balanced l r t.
Proof.
  intros l r t Nl Nr. split.
  - unfold count. rewrite (proj1 (count_occ_not_In Z.eq_dec t l) Nl), (proj1 (count_occ_not_In Z.eq_dec t r) Nr). reflexivity.
  - intros p s ->. unfold count. rewrite (proj1 (count_occ_not_In Z.eq_dec p r)); [lia|]. intros I. apply Nr. apply in_or_app. auto.
Qed.
Lemma balanced_check : forall l r t, Nat.eqb (count l t) (count r t) && forallb (fun k => Nat.leb (count r (firstn k t)) (count l (firstn k t))) (seq 0 (S (length t))) = true -> balanced l r t.
Proof.
  intros l r t H. apply andb_true_iff in H. destruct H as [H1 H2]. apply Nat.eqb_eq in H1. split; [exact H1|]. intros p s ->. rewrite forallb_forall in H2. assert (I : In (length p) (seq 0 (S (length (p ++ s))))) by (apply in_seq; rewrite app_length; lia). specialize (H2 _ I). apply Nat.leb_le in H2. rewrite firstn_app, firstn_all, Nat.sub_diag in H2. cbn [firstn] in H2. rewrite app_nil_r in H2. exact H2.
Qed.
Ltac bal := apply balanced_check; reflexivity.
Ltac tok := split; [bal|eexists; reflexivity].
(** component /a, /b ... *)
Definition ca (x : Z) : comp := c_generic [x].
(** "<a>[^<b><c>]{2,}(<d>?)$" *)
Definition ex_expr : list item := [One [97] QOne; Set_ true [[98]; [99]] (QFrom [50]); Group [One [100] QOpt] QOne].
Lemma ex_wf : wf toy_groups ex_expr.
Proof.
  repeat apply Forall_cons; [split; [tok|exact I]| | |apply Forall_nil].
  - split; [repeat apply Forall_cons; [tok|tok|apply Forall_nil]|]. split; [bal|]. cbn. split; [split; [discriminate|repeat constructor; lia]|reflexivity || lia].
  - split; [split; [split; [tok|exact I]|exact I]|]. split; [bal|exact I].
Qed.
Lemma ex_strict : strict toy_search ex_expr.
Proof. repeat apply Forall_cons; [exact I|exact I| |apply Forall_nil]. split; [split; exact I|left; reflexivity]. Qed.
Example C56_example : top_text false ex_expr true = [60; 97; 62; 91; 94; 60; 98; 62; 60; 99; 62; 93; 123; 50; 44; 125; 40; 60; 100; 62; 63; 41; 36] /\
  exists x, top_new toy_groups (top_text false ex_expr true) = Ok x /\
    snd (top_match toy_search x [ca 120; ca 97; ca 121; ca 122; ca 100]) = true /\ snd (top_match toy_search x [ca 120; ca 97; ca 121; ca 98; ca 100]) = false /\ snd (top_match toy_search x [ca 97; ca 121]) = false.
Proof. split; [reflexivity|]. eexists. split; [vm_compute; reflexivity|]. vm_compute. auto. Qed.

(** *** What is false *)
(** a repeated group that matches the empty name: "^(<a>*)+$" does not match the empty name *)
Theorem C56_complete_refuted : exists re_groups re_search e x, re_any re_groups re_search /\ wf re_groups e /\ top_new re_groups (top_text true e true) = Ok x /\
  matches re_search true e true [] /\ snd (top_match re_search x []) = false.
Proof.
  exists toy_groups, toy_search, [Group [One [97] QStar] QPlus]. eexists. split; [exact toy_any|]. split; [|split; [vm_compute; reflexivity|]].
  - apply Forall_cons; [|apply Forall_nil]. split; [split; [split; [tok|exact I]|exact I]|]. split; [bal|exact I].
  - split; [|vm_compute; reflexivity]. exists [], [], []. split; [reflexivity|]. split; [|auto]. cbn. exists [], []. split; [reflexivity|]. split; [|reflexivity]. exists [[]]. split; [reflexivity|]. split; [|split; cbn; [lia|exact I]]. constructor; [|constructor]. exists [], []. split; [reflexivity|]. split; [|reflexivity]. exists []. split; [reflexivity|]. split; [constructor|]. split; cbn; [lia|exact I].
Qed.
(** the expression of a component does not have to match the whole component: "^<a>$" matches /ba *)
Theorem C56_component_refuted : exists re_groups re_search x, re_any re_groups re_search /\ top_new re_groups (top_text true [One [97] QOne] true) = Ok x /\ snd (top_match re_search x [c_generic [98; 97]]) = true.
Proof. exists toy_groups, toy_search. eexists. split; [exact toy_any|]. split; [vm_compute; reflexivity|]. vm_compute. reflexivity. Qed.

(** ** C57 *)
Theorem C57_backrefs : forall re_groups re_search start e stop x ns n, re_any re_groups re_search -> wf re_groups e -> (start = true \/ e <> []) ->
  top_new re_groups (top_text start e stop) = Ok x ->
  let before := fold_left (fun x n => fst (top_match re_search x n)) ns x in
  snd (top_match re_search before n) = true ->
  let y := fst (top_match re_search before n) in
  exists u v w g, n = u ++ v ++ w /\ (start = true -> u = []) /\ (stop = true -> w = []) /\ caps_of re_groups re_search 0 e v g /\
    ref_result y 0 = Ok n /\
    (forall j c, In (j, c) g -> ref_result y (Z.of_nat j + 1) = Ok c) /\
    (forall i, 0 < i <= Z.of_nat (nrefs re_groups e) -> exists c, ref_result y i = Ok c) /\
    (forall i, Z.of_nat (nrefs re_groups e) < i -> ref_result y i = Err OtherError).
Proof.
  intros rg rs start e stop x ns n [A1 A2] W N H before M. destruct (top_ok rg A1 start e stop W N) as (x' & H' & Sh & _). rewrite H in H'. injection H' as <-. exact (match_sound rg rs A1 A2 _ _ _ _ _ W (shape_run rg rs start e stop ns x Sh) M).
Qed.
Lemma expand_sub : forall t d a b, sub_pattern 60 62 (S d) t = Ok (a, b) -> (b <> [] -> expand_text (S d) t = Ok (a, b)) /\ (b = [] -> expand_text (S d) t = Err OtherError).
Proof.
  induction t as [|c t IH]; intros d a b; cbn [sub_pattern expand_text]; [discriminate|]. destruct (if c =? 62 then _ else _) as [|n].
  - intros [= <- <-]. split; [intros N; destruct t; [congruence|reflexivity]|intros ->; reflexivity].
  - destruct (sub_pattern 60 62 (S n) t) as [[a' b']|] eqn:E; [|discriminate]. intros [= <- <-]. destruct t as [|c' t]; [discriminate E|]. destruct (IH _ _ _ E) as [I1 I2]. cbn [fst snd]. split; intros Hb; [rewrite (I1 Hb)|rewrite (I2 Hb)]; reflexivity.
Qed.
Definition no_digit (t : str) : Prop := match t with [] => True | c :: _ => is_digit c = false end.
Lemma span_ok : forall n t, Forall (fun c => 48 <= c <= 57) n -> no_digit t -> span_digits (n ++ t) = (n, t).
Proof.
  induction n as [|c n IH]; intros t F N; cbn [app span_digits].
  - destruct t as [|c t]; [reflexivity|]. cbn [no_digit] in N. cbn [span_digits]. rewrite N. reflexivity.
  - inversion F; subst. replace (is_digit c) with true by (unfold is_digit; lia). rewrite IH by assumption. reflexivity.
Qed.
Lemma ps_no_digit : forall ps, no_digit (flat_map p_text ps).
Proof. intros [|[n|t] ps]; cbn; auto. Qed.
Lemma p_nonempty : forall ps, ps <> [] -> flat_map p_text ps <> [].
Proof. intros [|[n|t] ps] N; [congruence| |]; discriminate. Qed.
Lemma ends_cons : forall p ps, ps <> [] -> ends_in_text (p :: ps) -> ends_in_text ps.
Proof. intros p ps N (ps' & t & E). destruct ps' as [|p' ps']; injection E as -> E; [congruence|]. exists ps', t. exact E. Qed.
Lemma comp_text_shape : forall t rest, comp_text t ++ rest = 60 :: t ++ 62 :: rest.
Proof. intros. unfold comp_text. cbn [app]. rewrite <- app_assoc. reflexivity. Qed.
Lemma loop_ref : forall f x n rest, number n -> no_digit rest ->
  expand_loop (S f) x (92 :: n ++ rest) = (v <-- ref_result x (decimal n) ;; r <-- expand_loop f x rest ;; Ok (v ++ r)).
Proof.
  intros f x n rest [Nn Fn] Nd. cbn [expand_loop]. change (92 =? 92) with true. cbv iota. rewrite span_ok by assumption. cbn [fst snd]. destruct n as [|c n]; [congruence|]. cbn [app]. rewrite int_decimal. reflexivity.
Qed.
Lemma loop_txt : forall f x t rest, balanced 60 62 t ->
  expand_loop (S f) x (comp_text t ++ rest) = match rest with [] => Err OtherError | _ => b <-- utf8_encode t ;; r <-- expand_loop f x rest ;; Ok (c_generic b :: r) end.
Proof.
  intros f x t rest B. rewrite comp_text_shape. cbn [expand_loop]. change (60 =? 92) with false. change (60 =? 60) with true. cbv iota.
  pose proof (sub_pattern_bal 60 62 t rest ltac:(discriminate) B) as Es. destruct (expand_sub _ _ _ _ Es) as [E1 E2]. destruct (t ++ 62 :: rest) as [|c z] eqn:Et; [destruct t; discriminate Et|]. destruct rest as [|c' rest].
  - rewrite (E2 eq_refl). reflexivity.
  - rewrite E1 by discriminate. cbn [rbind fst snd]. rewrite removelast_last. reflexivity.
Qed.
Lemma loop_err_text : forall ps t f x, Forall p_ok ps -> balanced 60 62 t -> exists e, expand_loop f x (flat_map p_text ps ++ comp_text t) = Err e.
Proof.
  induction ps as [|p ps IH]; intros t f x F B; cbn [flat_map app].
  - destruct f as [|f]; [eexists; reflexivity|]. pose proof (loop_txt f x t [] B) as E. rewrite app_nil_r in E. rewrite E. eexists. reflexivity.
  - inversion F as [|? ? Hp F']; subst. destruct f as [|f]; [destruct p; eexists; reflexivity|]. rewrite <- app_assoc. destruct p as [n|t']; cbn [p_text p_ok] in *.
    + cbn [app]. rewrite loop_ref; [|exact Hp|destruct ps as [|[m|m] ?]; reflexivity]. destruct (ref_result x (decimal n)) as [v|e]; cbn [rbind]; [|eexists; reflexivity]. destruct (IH t f x F' B) as (e & ->). eexists. reflexivity.
    + destruct Hp as [Hb [b Eb]]. rewrite loop_txt by exact Hb. destruct (flat_map p_text ps ++ comp_text t) eqn:E; [eexists; reflexivity|]. rewrite <- E. rewrite Eb. cbn [rbind]. destruct (IH t f x F' B) as (e & ->). eexists. reflexivity.
Qed.
Theorem C57_expand : forall x ps, Forall p_ok ps -> ~ ends_in_text ps -> expand x (flat_map p_text ps) = p_values (ref_result x) ps.
Proof.
  intros x ps F N. unfold expand. generalize (Nat.le_refl (length (flat_map p_text ps))). generalize (length (flat_map p_text ps)) at 2 3 as fuel. intros fuel. revert ps F N. induction fuel as [|f IH]; intros ps F N L.
  - destruct ps as [|[n|t] ps]; [reflexivity| |]; cbn in L; lia.
  - destruct ps as [|p ps]; [reflexivity|]. inversion F as [|? ? Hp F']; subst. cbn [flat_map p_values] in *. rewrite app_length in L.
    assert (Ips : ps = [] \/ ~ ends_in_text ps) by (destruct ps as [|p2 ps]; [auto|right]; intros (ps' & t & E); apply N; exists (p :: ps'), t; rewrite E; reflexivity).
    assert (IHps : (length (flat_map p_text ps) <= f)%nat -> expand_loop f x (flat_map p_text ps) = p_values (ref_result x) ps) by (intros Lf; destruct Ips as [->|Ne]; [destruct f; reflexivity|apply IH; assumption]).
    destruct p as [n|t]; cbn [p_text p_ok p_value] in *.
    + cbn [app length] in *. rewrite loop_ref; [|exact Hp|apply ps_no_digit]. destruct (ref_result x (decimal n)) as [v|e]; cbn [rbind]; [|reflexivity]. rewrite IHps by lia. destruct (p_values (ref_result x) ps); reflexivity.
    + destruct Hp as [Hb [b Eb]]. rewrite loop_txt by exact Hb. assert (Nps : ps <> []) by (intros ->; apply N; exists [], t; reflexivity). pose proof (p_nonempty ps Nps) as Np. destruct (flat_map p_text ps) as [|c z] eqn:Ez; [congruence|]. rewrite Eb. cbn [rbind]. unfold comp_text in L. cbn [length] in L. rewrite IHps by (cbn [length]; lia). destruct (p_values (ref_result x) ps); reflexivity.
Qed.
(** an expansion whose last piece is a text is refused *)
Theorem C57_expand_refuted : forall x ps t, Forall p_ok (ps ++ [Txt t]) -> exists err, expand x (flat_map p_text (ps ++ [Txt t])) = Err err.
Proof.
  intros x ps t F. apply Forall_app in F. destruct F as [F Ft]. inversion Ft as [|? ? Hp _]; subst. destruct Hp as [Hb _]. rewrite flat_map_app. cbn [flat_map p_text]. rewrite app_nil_r. apply loop_err_text; assumption.
Qed.
(** "^(<a>)(<(.*)>)$" on /a/b: \1 is /a, \2 is /b and \3 is /b *)
Definition ex_refs : list item := [Group [One [97] QOne] QOne; Group [One [40; 46; 42; 41] QOne] QOne].
Lemma ex_refs_wf : wf toy_groups ex_refs.
Proof. repeat apply Forall_cons; [| |apply Forall_nil]; (split; [split; [split; [tok|exact I]|exact I]|]; split; [bal|exact I]). Qed.
Example C57_example : exists x y, top_new toy_groups (top_text true ex_refs true) = Ok x /\ top_match toy_search x [ca 97; ca 98] = (y, true) /\
  expand y (flat_map p_text [Ref [49]; Txt [120]; Ref [51]; Ref [50]]) = Ok [ca 97; c_generic [120]; ca 98; ca 98] /\ Forall p_ok [Ref [49]; Txt [120]; Ref [51]; Ref [50]].
Proof.
  eexists. eexists. split; [vm_compute; reflexivity|]. split; [vm_compute; reflexivity|]. split; [vm_compute; reflexivity|]. repeat apply Forall_cons; [..|apply Forall_nil]; cbn [p_ok]; try (split; [discriminate|constructor; [lia|constructor]]). split; [bal|eexists; reflexivity].
Qed.
(** a group which did not take part in the match may show components of another try:
    "^(<a>)?<a><b>$" on /a/b *)
Theorem C57_stale_refuted : exists re_groups re_search e x y n, re_any re_groups re_search /\ wf re_groups e /\ top_new re_groups (top_text true e true) = Ok x /\ top_match re_search x n = (y, true) /\
  (forall g, caps_of re_groups re_search 0 e n g -> g = []) /\ ref_result y 1 <> Ok [].
Proof.
  exists toy_groups, toy_search, [Group [One [97] QOne] QOpt; One [97] QOne; One [98] QOne]. eexists. eexists. exists [ca 97; ca 98]. split; [exact toy_any|]. split; [|split; [vm_compute; reflexivity|split; [vm_compute; reflexivity|split]]].
  - repeat apply Forall_cons; [|split; [tok|exact I]|split; [tok|exact I]|apply Forall_nil]. split; [split; [split; [tok|exact I]|exact I]|]. split; [bal|exact I].
  - intros g (u & v & s1 & s2 & E & -> & A & (u1 & v1 & s3 & s4 & -> & -> & B & (u2 & v2 & s5 & s6 & -> & -> & C & [-> ->]))).
    assert (G : forall k t w s, (exists g, toy_groups t = Ok g /\ g = 0%nat) -> t <> [] -> caps_item toy_groups toy_search k (One t QOne) w s -> length w = 1%nat /\ s = []).
    { intros k t w s (g0 & Eg & ->) Nt (ws & -> & [W1 W2] & F & R). cbn in W1, W2. assert (Lw : length ws = 1%nat) by lia. destruct ws as [|w0 [|]]; try discriminate Lw. cbn [concat rev app] in *. rewrite app_nil_r. destruct R as (c & -> & R). split; [reflexivity|]. cbn [set_caps] in R. destruct t as [|x t]; [congruence|]. unfold groups in R. rewrite Eg in R. destruct (toy_search _ _); [apply R|destruct R as [R _]; discriminate R]. }
    apply G in B; [|exists 0%nat; auto|discriminate]. apply G in C; [|exists 0%nat; auto|discriminate]. destruct B as [L1 ->], C as [L2 ->]. cbn [app].
    assert (Lu : u = []) by (apply (f_equal (@length comp)) in E; rewrite !app_length, L1, L2 in E; cbn in E; destruct u; [reflexivity|cbn in E; lia]).
    destruct A as (ws & Eu & [W1 W2] & F & R). cbn in W1, W2. destruct ws as [|w0 [|]]; [cbn in R; subst s1; reflexivity| |cbn in W2; lia]. exfalso. cbn in Eu. rewrite app_nil_r in Eu. subst w0 u. inversion F as [|? ? [s' (s'' & _ & (u & v & t1 & t2 & E' & _ & Ci & [-> _]))] _]; subst. apply G in Ci; [|exists 0%nat; auto|discriminate]. destruct Ci as [Ci _]. rewrite app_nil_r in E'. subst u. discriminate Ci.
  - vm_compute. discriminate.
Qed.

(** ** C58 *)
Lemma special_quoted : forall t, Forall literal t -> convertSpecialChar t = quoted t.
Proof.
  induction t as [|c t IH]; intros F; [reflexivity|]. inversion F as [|? ? L F']; subst. unfold convertSpecialChar, quoted in *. cbn [flat_map]. rewrite IH by exact F'. f_equal. unfold special, literal in *. cbn [existsb].
  destruct (Z.eqb_spec c 46); [subst; reflexivity|]. destruct (Z.eqb_spec c 43); [subst; reflexivity|]. cbn [orb]. clear - L n n0. repeat match goal with |- context [c =? ?x] => replace (c =? x) with false by (symmetry; apply Z.eqb_neq; lia) end. reflexivity.
Qed.
Lemma esc_literal : forall c, c_uri_ok c \/ c_digest_ok c -> Forall literal (c_toEscapedString c).
Proof.
  assert (U : forall v, bytes_ok v -> Forall literal (toEscapedString v)).
  { intros v B. eapply Forall_impl; [|apply toEscaped_uchar; exact B]. intros a Ha. unfold uchar, unreserved in Ha. unfold literal. lia. }
  assert (H : forall v, bytes_ok v -> Forall literal (flat_map hex2L v)).
  { intros v B. induction B as [|x v Bx _ IH]; cbn [flat_map]; [constructor|]. apply Forall_app. split; [|exact IH]. unfold hex2L, is_byte in *. assert (L : forall d, 0 <= d < 16 -> literal (hexL d)) by (intros d Hd; unfold hexL, literal; destruct (d <? 10) eqn:?; lia). apply Forall_cons; [apply L; split; [apply Z.div_pos; lia|apply Z.div_lt_upper_bound; lia]|]. apply Forall_cons; [apply L; apply Z.mod_pos_bound; lia|apply Forall_nil]. }
  intros c [[B Hc]|(B & _ & _ & Hc)]; unfold c_toEscapedString.
  - destruct Hc as [[T O]|[T O]]; rewrite T.
    + cbn. apply U. exact B.
    + cbn [Z.eqb CT_OTHER CT_IMPLICIT CT_PARAMS CT_GENERIC Pos.eqb negb]. apply Forall_app. split; [|apply U; exact B]. apply Forall_app. split; [|repeat constructor; unfold literal; lia]. destruct (str_int_dig (c_other c)) as [D _]; [lia|]. eapply Forall_impl; [|exact D]. intros a Ha. unfold isdig, literal in *. lia.
  - assert (L : forall p, forallb (fun c => ((48 <=? c) && (c <=? 57)) || ((97 <=? c) && (c <=? 122)) || (c =? 61) || (c =? 45)) p = true -> Forall literal p) by (intros p E; apply Forall_forall; intros a I; rewrite forallb_forall in E; specialize (E a I); unfold literal; lia).
    destruct Hc as [T|T]; rewrite T; [cbn [Z.eqb CT_IMPLICIT Pos.eqb]|change (CT_PARAMS =? CT_IMPLICIT) with false; change (CT_PARAMS =? CT_PARAMS) with true; cbv iota]; (apply Forall_app; split; [apply L; reflexivity|apply H; exact B]).
Qed.
Definition name_items (n : name) : list item := map (fun c => One (quoted (c_toEscapedString c)) QOne) n.
Lemma regex_text : forall n a, Forall (fun c => c_uri_ok c \/ c_digest_ok c) n -> regex_of_name n a = top_text true (name_items n) a.
Proof.
  intros n a F. unfold regex_of_name, top_text. cbn [app]. f_equal. f_equal. unfold e_text, name_items. induction F as [|c n Hc _ IH]; [reflexivity|]. cbn [flat_map map]. rewrite IH. f_equal. rewrite special_quoted by (apply esc_literal; exact Hc). cbn [i_text q_text]. rewrite app_nil_r. reflexivity.
Qed.
Lemma quoted_in : forall t c, In c (quoted t) -> In c t \/ c = 92.
Proof.
  intros t c I. unfold quoted in I. apply in_flat_map in I. destruct I as (x & Ix & I). destruct ((x =? 46) || (x =? 43)); cbn in I; [destruct I as [<-|[<-|[]]]; auto|destruct I as [<-|[]]; auto].
Qed.
Lemma quoted_nonempty : forall t, t <> [] -> quoted t <> [].
Proof. intros [|c t] N; [congruence|]. cbn. destruct ((c =? 46) || (c =? 43)); discriminate. Qed.
Lemma name_wf : forall rg rs n, re_literal rg rs -> Forall (fun c => c_uri_ok c \/ c_digest_ok c) n -> wf rg (name_items n).
Proof.
  intros rg rs n R F. apply Forall_map. eapply Forall_impl; [|exact F]. intros c Hc. split; [|exact I]. pose proof (esc_literal c Hc) as L. split.
  - apply balanced_none; intros X; apply quoted_in in X; (destruct X as [X|X]; [|discriminate X]); rewrite Forall_forall in L; specialize (L _ X); unfold literal in L; lia.
  - exists 0%nat. apply (R _ (text_nonempty c) L).
Qed.
Lemma name_lang : forall rg rs n m, re_literal rg rs -> Forall (fun c => c_uri_ok c \/ c_digest_ok c) n ->
  (lang rs (name_items n) m <-> Forall2 (fun c d => substring (c_toEscapedString c) (c_toEscapedString d)) n m).
Proof.
  intros rg rs n m R F. revert m. induction F as [|c n Hc _ IH]; intros m; cbn [name_items map lang].
  - split; [intros ->; constructor|]. intros X. inversion X. reflexivity.
  - pose proof (esc_literal c Hc) as L. destruct (R _ (text_nonempty c) L) as [_ S']. split.
    + intros (u & v & -> & A & B). apply IH in B. cbn [lang_item] in A. apply reps_one_inv in A. destruct A as (d & -> & A). cbn [app]. constructor; [|exact B]. inversion A as [? ? [X|X]|? ? X]; subst; [exfalso; exact (quoted_nonempty _ (text_nonempty c) X)|apply S'; exact X|inversion X].
    + intros X. inversion X as [|? d ? m' Hd Hm]; subst. exists [d], m'. split; [reflexivity|]. split; [|apply IH; exact Hm]. cbn [lang_item]. exists [[d]]. split; [reflexivity|]. split; [|split; cbn; lia]. constructor; [|constructor]. exists d. split; [reflexivity|]. left. right. apply S'. exact Hd.
Qed.
(** the regular expression of a name: the names whose components contain the ones of the name *)
Theorem C58_fromName : forall re_groups re_search n hasAnchor, re_any re_groups re_search -> re_literal re_groups re_search -> Forall (fun c => c_uri_ok c \/ c_digest_ok c) n ->
  exists x, fromName re_groups n hasAnchor = Ok x /\
    forall m, zlen m <= 32767 -> (snd (top_match re_search x m) = true <->
      exists m1 m2, m = m1 ++ m2 /\ Forall2 (fun c d => substring (c_toEscapedString c) (c_toEscapedString d)) n m1 /\ (hasAnchor = true -> m2 = [])).
Proof.
  intros rg rs n a A R F. pose proof (name_wf rg rs n R F) as W. destruct (top_ok rg (proj1 A) true (name_items n) a W (or_introl eq_refl)) as (x & H & _). unfold fromName. rewrite (regex_text n a F). exists x. split; [exact H|]. intros m L.
  assert (Ss : strict rs (name_items n)) by (apply Forall_map; apply Forall_forall; intros c _; exact I). rewrite (C56_match rg rs true (name_items n) a x [] m A W (or_introl eq_refl) Ss L H). unfold matches. split.
  - intros (u & v & w & -> & Hv & Hu & Hw). rewrite (Hu eq_refl). exists v, w. split; [reflexivity|]. split; [eapply name_lang; eassumption|exact Hw].
  - intros (m1 & m2 & -> & Hm & Ha). exists [], m1, m2. split; [reflexivity|]. split; [eapply name_lang; eassumption|]. split; [reflexivity|exact Ha].
Qed.
(** it matches the name, and without the anchor every name below it *)
Corollary C58_fromName_itself : forall re_groups re_search n rest x, re_any re_groups re_search -> re_literal re_groups re_search -> Forall (fun c => c_uri_ok c \/ c_digest_ok c) n -> zlen (n ++ rest) <= 32767 ->
  fromName re_groups n false = Ok x -> snd (top_match re_search x (n ++ rest)) = true.
Proof.
  intros rg rs n rest x A R F L H. destruct (C58_fromName rg rs n false A R F) as (x' & H' & M). rewrite H in H'. injection H' as <-. apply M; [exact L|]. exists n, rest. split; [reflexivity|]. split; [|discriminate]. clear. induction n as [|c n IH]; constructor; [|exact IH]. exists [], []. rewrite app_nil_r. reflexivity.
Qed.
(** an engine for literals *)
Fixpoint unquote (t : str) : str := match t with 92 :: c :: t' => c :: unquote t' | c :: t' => c :: unquote t' | [] => [] end.
Definition lit_groups (t : str) : res nat := Ok 0%nat.
Definition lit_search (t s : str) : option (list (option str)) := if zlist_eqb t [46; 42] then Some [] else if is_sub (unquote t) s then Some [] else None.
Lemma is_prefix_iff : forall t s, is_prefix t s = true <-> exists b, s = t ++ b.
Proof.
  induction t as [|c t IH]; intros s; cbn [is_prefix]; [split; [intros _; exists s; reflexivity|reflexivity]|]. destruct s as [|d s]; [split; [discriminate|intros [b X]; discriminate X]|]. rewrite andb_true_iff, IH. split.
  - intros [E [b ->]]. apply Z.eqb_eq in E. subst. exists b. reflexivity.
  - intros [b X]. injection X as <- ->. split; [apply Z.eqb_refl|eauto].
Qed.
Lemma is_sub_iff : forall t s, is_sub t s = true <-> substring t s.
Proof.
  intros t. induction s as [|d s IH]; cbn [is_sub]; rewrite orb_true_iff, is_prefix_iff.
  - split; [intros [[b X]|X]; [exists [], b; exact X|discriminate X]|]. intros (a & b & X). symmetry in X. apply app_eq_nil in X. destruct X as [-> X]. apply app_eq_nil in X. destruct X as [-> ->]. left. exists []. reflexivity.
  - rewrite IH. split.
    + intros [[b ->]|(a & b & ->)]; [exists [], b; reflexivity|exists (d :: a), b; reflexivity].
    + intros (a & b & X). destruct a as [|x a]; [left; exists b; exact X|]. injection X as _ ->. right. exists a, b. reflexivity.
Qed.
Lemma unquote_other : forall c t, c <> 92 -> unquote (c :: t) = c :: unquote t.
Proof. intros c t N. cbn [unquote]. destruct c as [|p|p]; try reflexivity. do 7 (destruct p as [p|p|]; try reflexivity). congruence. Qed.
Lemma unquote_quoted : forall t, Forall literal t -> unquote (quoted t) = t.
Proof.
  induction t as [|c t IH]; intros F; [reflexivity|]. inversion F as [|? ? L F']; subst. cbn [quoted flat_map]. destruct ((c =? 46) || (c =? 43)).
  - cbn [app]. change (unquote (92 :: c :: flat_map (fun c => if (c =? 46) || (c =? 43) then [92; c] else [c]) t)) with (c :: unquote (quoted t)). rewrite IH by exact F'. reflexivity.
  - cbn [app]. rewrite unquote_other by (unfold literal in L; lia). f_equal. apply IH. exact F'.
Qed.
Lemma lit_literal : re_any lit_groups lit_search /\ re_literal lit_groups lit_search.
Proof.
  split; [split; [reflexivity|discriminate]|]. intros t N F. split; [reflexivity|]. intros s. unfold lit_search. destruct (zlist_eqb (quoted t) [46; 42]) eqn:E.
  - exfalso. apply zlist_eqb_eq in E. destruct t as [|c t]; [congruence|]. cbn in E. destruct ((c =? 46) || (c =? 43)) eqn:Ec; [discriminate E|]. injection E as -> _. discriminate Ec.
  - rewrite unquote_quoted by exact F. rewrite <- is_sub_iff. destruct (is_sub t s); split; congruence || discriminate.
Qed.
(** it is not the name alone: the expression of /a with the anchor matches /ba *)
Theorem C58_fromName_refuted : exists re_groups re_search n m x, re_any re_groups re_search /\ re_literal re_groups re_search /\ Forall (fun c => c_uri_ok c \/ c_digest_ok c) n /\ fromName re_groups n true = Ok x /\ n_equals n m = false /\ snd (top_match re_search x m) = true.
Proof.
  exists lit_groups, lit_search, [ca 97], [c_generic [98; 97]]. eexists. destruct lit_literal as [A R]. split; [exact A|]. split; [exact R|]. split; [|split; [vm_compute; reflexivity|split; reflexivity]]. constructor; [|constructor]. left. split; [repeat constructor; unfold is_byte; cbn; lia|left; split; reflexivity].
Qed.
(** InterestFilter without a regular expression *)
Theorem C58_filter_prefix : forall re_groups re_search p n, filter_doesMatch re_groups re_search p None n = Ok true <-> prefix (map c_value p) (map c_value n).
Proof.
  intros rg rs p n. unfold filter_doesMatch. rewrite <- n_match_iff. unfold n_match. destruct (zlen n <? zlen p) eqn:E.
  - split; discriminate.
  - destruct (n_match_values p n); split; congruence.
Qed.
Lemma removelast_nil : forall (t : str), last t 0 <> 36 -> (if last t 0 =? 36 then t else t ++ [36]) = t ++ [36].
Proof. intros t N. apply Z.eqb_neq in N. rewrite N. reflexivity. Qed.
Lemma pattern_ok : forall rg start e stop, wf rg e -> makePattern (top_text start e stop) = top_text true e true.
Proof.
  intros rg start e stop W. unfold makePattern. set (p := match top_text start e stop with 94 :: _ => _ | _ => _ end).
  assert (Ep : p = 94 :: e_text e ++ (if stop then [36] else [])).
  { unfold p, top_text. destruct start; [reflexivity|]. cbn [app]. destruct (e_text e ++ (if stop then [36] else [])) as [|c z] eqn:E; [reflexivity|]. assert (c <> 94). { destruct (e_starts e) as [Ee|(c' & t' & Ee & Hc)]; rewrite Ee in E; [destruct stop; [injection E as <- _; discriminate|discriminate E]|]. injection E as <- _. lia. }
    destruct c as [|q|q]; try reflexivity. do 7 (destruct q as [q|q|]; try reflexivity). congruence. }
  rewrite Ep. unfold top_text. destruct stop.
  - change (94 :: e_text e ++ [36]) with ((94 :: e_text e) ++ [36]). rewrite last_last. reflexivity.
  - rewrite app_nil_r. rewrite removelast_nil; [reflexivity|]. destruct (e_text e) as [|c z] eqn:E; [discriminate|]. change (94 :: c :: z) with ([94] ++ c :: z). rewrite last_app by discriminate. rewrite <- E. eapply last_e. exact W.
Qed.
(** InterestFilter with a regular expression: the components after the prefix match as a whole *)
Theorem C58_filter_regex : forall re_groups re_search p start e stop n, re_any re_groups re_search -> wf re_groups e -> strict re_search e -> zlen n <= 32767 ->
  exists b, filter_doesMatch re_groups re_search p (Some (top_text start e stop)) n = Ok b /\
    (b = true <-> exists q rest, n = q ++ rest /\ map c_value q = map c_value p /\ lang re_search e rest).
Proof.
  intros rg rs p start e stop n A W Ss L. unfold filter_doesMatch. rewrite (pattern_ok rg start e stop W).
  assert (Lq : forall q, map c_value q = map c_value p -> length q = length p) by (intros q E; apply (f_equal (@length _)) in E; rewrite !map_length in E; exact E).
  destruct (zlen n <? zlen p) eqn:El.
  - exists false. split; [reflexivity|]. split; [discriminate|]. intros (q & rest & -> & E & _). apply Lq in E. exfalso. rewrite zlen_app in El. unfold zlen in El. lia.
  - destruct (n_match p n) eqn:Em; cbn [negb].
    + destruct (top_ok rg (proj1 A) true e true W (or_introl eq_refl)) as (x & H & _). rewrite H. cbn [rbind].
      assert (Es : n_getSubName n (zlen p) None = Ok (skipn (length p) n)).
      { change (n_getSubName n (zlen p) None) with (n_getSubName n (zlen p) (Some (zlen n - (if zlen p <? 0 then zlen n - - zlen p else zlen p)))). pose proof (zlen_nonneg _ p) as Lp. replace (zlen p <? 0) with false by lia. pose proof (zlen_nonneg _ n). rewrite n_getSubName_ok by lia. cbv zeta. replace (zlen p <? 0) with false by lia. f_equal. unfold zslice. replace (Z.to_nat (Z.min (zlen p) (zlen n))) with (length p) by (unfold zlen in *; lia). rewrite firstn_all2; [reflexivity|]. rewrite skipn_length. unfold zlen in *. lia. }
      rewrite Es. cbn [rbind]. eexists. split; [reflexivity|]. rewrite (C56_match rg rs true e true x [] (skipn (length p) n) A W (or_introl eq_refl) Ss ltac:(unfold zlen in *; rewrite skipn_length; lia) H).
      apply n_match_iff in Em. destruct Em as [s Em]. split.
      * intros (u & v & w & E & Hv & Hu & Hw). rewrite (Hu eq_refl), (Hw eq_refl), app_nil_r in E. cbn [app] in E. exists (firstn (length p) n), (skipn (length p) n). split; [symmetry; apply firstn_skipn|]. split; [|rewrite E; exact Hv]. rewrite <- firstn_map, Em, firstn_app, map_length, Nat.sub_diag. cbn [firstn]. rewrite app_nil_r. rewrite <- (map_length c_value p) at 1. apply firstn_all.
      * intros (q & rest & -> & E & Hr). exists [], rest, []. apply Lq in E. rewrite skipn_app, <- E, skipn_all, Nat.sub_diag. cbn [skipn app]. rewrite app_nil_r. auto.
    + exists false. split; [reflexivity|]. split; [discriminate|]. intros (q & rest & -> & E & _). assert (X : n_match p (q ++ rest) = true) by (apply n_match_iff; exists (map c_value rest); rewrite map_app, E; reflexivity). congruence.
Qed.
Example C58_example : filter_doesMatch toy_groups toy_search [ca 122] (Some (top_text false ex_expr false)) [ca 122; ca 97; ca 121; ca 121; ca 100] = Ok true /\
  filter_doesMatch toy_groups toy_search [ca 122] (Some (top_text false ex_expr false)) [ca 122; ca 120; ca 97; ca 121; ca 121] = Ok false.
Proof. split; vm_compute; reflexivity. Qed.

Print Assumptions C56_accepts. Print Assumptions C56_errors. Print Assumptions C56_sound. Print Assumptions C56_match. Print Assumptions C56_text. Print Assumptions C56_complete_refuted. Print Assumptions C56_component_refuted.
Print Assumptions C57_backrefs. Print Assumptions C57_expand. Print Assumptions C57_expand_refuted. Print Assumptions C57_stale_refuted.
Print Assumptions C58_fromName. Print Assumptions C58_fromName_itself. Print Assumptions C58_fromName_refuted. Print Assumptions C58_filter_prefix. Print Assumptions C58_filter_regex.
