(** * Proofs about loading the validator configuration *)
From Verif Require Import Base BaseLemmas TlvModel NameModel NameSpec NameProofs UriModel BlobModel WireModel CmdModel CmdProps ValModel HierModel HierSpec HierProps RegexModel RegexSpec RegexProofs RegexProofs2 RegexProofs3 RegexProofs4 RegexProps InfoModel InfoSpec InfoProofs ConfModel ConfSpec ConfProofs.
From Coq Require Import Arith.
Local Open Scope res_scope.

Lemma get_word : forall t w, path w = [w] -> t_getitem t w = select [w] t.
Proof. intros t w P. unfold t_getitem. rewrite getitem_ok by apply le_n. rewrite P. reflexivity. Qed.
Lemma first_word : forall t w, path w = [w] -> getFirstValue t w = value w t.
Proof. intros t w P. unfold getFirstValue, value. rewrite get_word by exact P. reflexivity. Qed.
Ltac words := repeat (first [rewrite first_word by reflexivity|rewrite get_word by reflexivity]).
Ltac words_in H := repeat (first [rewrite first_word in H by reflexivity|rewrite get_word in H by reflexivity]).
Lemma reads_lower : forall v w, reads_as v w <-> lower v = w.
Proof.
  intros v w. unfold reads_as, lower. split.
  - induction 1 as [|c d v w H _ IH]; [reflexivity|]. cbn [map]. rewrite IH. destruct ((65 <=? c) && (c <=? 90)); subst d; f_equal; lia.
  - intros <-. induction v as [|c v IH]; cbn [map]; constructor; [|exact IH]. destruct ((65 <=? c) && (c <=? 90)); lia.
Qed.
Lemma says_eqb : forall k w t v, value k t = Some v -> (zlist_eqb (lower v) w = true <-> says k w t).
Proof. intros k w t v E. rewrite zlist_eqb_eq, <- reads_lower. split; [intros X; exists v; auto|intros (v' & E' & X); congruence]. Qed.
Lemma says_fun : forall k w w' t, says k w t -> says k w' t -> w = w'.
Proof. intros k w w' t (v & E & X) (v' & E' & X'). apply reads_lower in X, X'. congruence. Qed.
Lemma word_case : forall (B : Type) k w t v (a b : B), value k t = Some v -> says k w t -> (if zlist_eqb (lower v) w then a else b) = a.
Proof. intros B k w t v a b E X. apply says_eqb with (v := v) in X; [|exact E]. rewrite X. reflexivity. Qed.
Lemma relation_ok : forall k t r, (v <-- expect (value k t) ;; getNameRelation v) = Ok r <-> relation_of k t r.
Proof.
  intros k t r. unfold relation_of, says. destruct (value k t) as [v|]; cbn [expect rbind].
  - unfold getNameRelation. split.
    + destruct (zlist_eqb (lower v) w_equal) eqn:E1; [intros [= <-]; exists v; split; [reflexivity|apply reads_lower, zlist_eqb_eq; exact E1]|].
      destruct (zlist_eqb (lower v) w_prefix) eqn:E2; [intros [= <-]; exists v; split; [reflexivity|apply reads_lower, zlist_eqb_eq; exact E2]|].
      destruct (zlist_eqb (lower v) w_strict) eqn:E3; [intros [= <-]; exists v; split; [reflexivity|apply reads_lower, zlist_eqb_eq; exact E3]|discriminate].
    + intros (v' & [= <-] & E). apply reads_lower in E. rewrite E. destruct r; reflexivity.
  - split; [discriminate|intros (v & X & _); discriminate X].
Qed.
Lemma bind_ok : forall (B D : Type) (m : res B) (f : B -> res D) d, rbind m f = Ok d <-> exists b, m = Ok b /\ f b = Ok d.
Proof. intros B D [b|e] f d; cbn [rbind]; [split; [eauto|intros (b' & [= <-] & X); exact X]|split; [discriminate|intros (b & X & _); discriminate X]]. Qed.
Lemma bind_err : forall (B D : Type) (m : res B) (f : B -> res D) e, rbind m f = Err e -> m = Err e \/ exists b, m = Ok b /\ f b = Err e.
Proof. intros B D [b|e'] f e X; cbn [rbind] in X; [right; eauto|left; injection X as ->; reflexivity]. Qed.
Lemma expect_ok : forall (B : Type) (o : option B) b, expect o = Ok b <-> o = Some b.
Proof. intros B [x|] b; cbn [expect]; split; intros E; inversion E; reflexivity. Qed.
Lemma expect_err : forall (B : Type) (o : option B) e, expect o = Err e -> e = OtherError.
Proof. intros B [x|] e E; inversion E; reflexivity. Qed.
Lemma wrap_ok : forall (B : Type) (m : res B) b, wrap m = Ok b -> m = Ok b.
Proof. intros B [x|e] b; cbn [wrap]; [tauto|discriminate]. Qed.
Lemma wrap_err : forall (B : Type) (m : res B) e, wrap m = Err e -> e = OtherError.
Proof. intros B [x|e'] e E; inversion E; reflexivity. Qed.
Lemma getRel_err : forall v e, getNameRelation v = Err e -> e = OtherError.
Proof. intros v e. unfold getNameRelation. destruct (zlist_eqb _ _); [discriminate|]. destruct (zlist_eqb _ _); [discriminate|]. destruct (zlist_eqb _ _); [discriminate|]. intros [= <-]. reflexivity. Qed.

Section C.
Variable re_groups : str -> res nat.
Variable re_search : str -> str -> option (list (option str)).
Hypothesis A : re_any re_groups re_search.
Notation rep_x := (rep_x re_groups).
Notation rep_f := (rep_f re_groups).
Notation rep_c := (rep_c re_groups).
Notation rep_r := (rep_r re_groups).
Notation rep_p := (rep_p re_groups).
Notation top_new := (top_new re_groups).
Notation regex_of := (regex_of re_groups).

Lemma regex_new : forall t s, regex_of t s -> exists x, top_new t = Ok x /\ rep_x x s.
Proof. intros t s (W & N & ->). destruct A as [A1 A2]. destruct (top_ok re_groups A1 (x_start s) (x_items s) (x_stop s) W N) as (x & E & Sh & _). exists x. split; [exact E|]. split; assumption. Qed.
Lemma regex_inv : forall t x, top_new t = Ok x -> exists s, regex_of t s.
Proof. intros t x E. apply top_inv in E. destruct E as (a & e & b & W & N & ->). exists (Regex a e b). split; [exact W|]. split; [exact N|reflexivity]. Qed.

(** ** Filters *)
Lemma filter_ok : forall t s, reads_filter re_groups t s -> exists f, f_create re_groups t = Ok f /\ rep_f f s.
Proof.
  intros t s [T H]. unfold f_create. words. destruct T as (v & Ev & Lv). rewrite Ev. cbn [expect rbind]. rewrite (word_case _ w_type w_name t v) by (try exact Ev; exists v; auto). unfold createNameFilter. words. destruct s as [n r|x].
  - destruct H as (uri & Eu & En & R). rewrite Eu, En. cbn [rbind]. apply relation_ok in R. exists (FName n r). split; [|constructor]. destruct (expect (value w_relation t)) as [z|e]; [|discriminate R]. cbn [rbind] in *. rewrite R. reflexivity.
  - destruct H as (Nn & e & Ee & X). rewrite Nn, Ee. destruct (regex_new e x X) as (y & Ey & Ry). rewrite Ey. cbn [wrap rbind]. exists (FRegex y). split; [reflexivity|constructor; exact Ry].
Qed.
Lemma filter_inv : forall t f, f_create re_groups t = Ok f -> exists s, reads_filter re_groups t s.
Proof.
  intros t f E. unfold f_create in E. words_in E. apply bind_ok in E. destruct E as (v & Ev & E). apply expect_ok in Ev. destruct (zlist_eqb (lower v) w_name) eqn:T; [|discriminate E]. apply (says_eqb w_type w_name t v Ev) in T. unfold createNameFilter in E. words_in E. destruct (value w_name t) as [uri|] eqn:Eu.
  - apply bind_ok in E. destruct E as (n & En & E). apply bind_ok in E. destruct E as (z & Ez & E). apply bind_ok in E. destruct E as (r & Er & _). exists (SName n r). split; [exact T|]. exists uri. split; [exact Eu|]. split; [exact En|]. apply relation_ok. rewrite Ez. exact Er.
  - destruct (value w_regex t) as [e|] eqn:Ee; [|discriminate E]. apply bind_ok in E. destruct E as (y & Ey & _). apply wrap_ok in Ey. destruct (regex_inv e y Ey) as [x X]. exists (SRegex x). split; [exact T|]. split; [exact Eu|]. exists e. split; [exact Ee|exact X].
Qed.

(** ** Checkers *)
Hypothesis Lit : re_literal re_groups re_search.
Lemma key_groups : re_groups KEYv = Ok 0%nat.
Proof. apply (Lit KEYv); [discriminate|]. unfold KEYv. cbn. repeat (constructor; [unfold literal; lia|]). constructor. Qed.
Hypothesis Emp : re_groups [] = Ok 0%nat.
Lemma any_ok : wf_item re_groups (Group [One [] QStar] QOne).
Proof. split; [split; [split; [split; [bal|eauto]|exact I]|exact I]|]. split; [bal|exact I]. Qed.
Lemma h_packet_of : regex_of h_packet (Regex true [Group [One [] QStar] QOne] true).
Proof. split; [constructor; [exact any_ok|constructor]|]. split; [left; reflexivity|reflexivity]. Qed.
Lemma h_key_of : regex_of h_key (Regex true [Group [One [] QStar] QOne; One KEYv QOne; One [] QOne] true).
Proof.
  split; [|split; [left; reflexivity|reflexivity]]. constructor; [exact any_ok|]. constructor; [split; [split; [bal|exists 0%nat; exact key_groups]|exact I]|]. constructor; [split; [split; [bal|eauto]|exact I]|constructor].
Qed.
Lemma hyper_ok : forall p sp pe k sk ke r, regex_of p sp -> regex_of k sk -> exists c, hyper_new re_groups p pe k ke r = Ok c /\ rep_c c (CHyper sp pe sk ke r).
Proof.
  intros p sp pe k sk ke r Hp Hk. unfold hyper_new. destruct (regex_new p sp Hp) as (x & Ex & Rx). destruct (regex_new k sk Hk) as (y & Ey & Ry). rewrite Ex, Ey. cbn [rbind]. eexists. split; [reflexivity|constructor; assumption].
Qed.
Lemma hier_ok : exists c, hierarchical re_groups = Ok c /\ rep_c c hier_checker.
Proof. apply hyper_ok; [exact h_packet_of|exact h_key_of]. Qed.
Lemma checker_ok : forall t s, reads_checker re_groups t s -> exists c, k_create re_groups t = Ok c /\ rep_c c s.
Proof.
  intros t s [[T ->]|(T & l & El & Tl & H)]; unfold k_create; words; pose proof T as (v & Ev & Lv); rewrite Ev; cbn [expect rbind].
  - apply reads_lower in Lv. rewrite Lv. change (zlist_eqb w_hierarchical w_customized) with false. change (zlist_eqb w_hierarchical w_hierarchical) with true. cbv iota. exact hier_ok.
  - rewrite (word_case _ w_type w_customized t v) by assumption. unfold customized. words. rewrite El. unfold createKeyLocator. words. pose proof Tl as (v' & Ev' & Lv'). rewrite Ev'. cbn [expect rbind]. rewrite (word_case _ w_type w_name l v') by assumption. unfold createKeyLocatorName. words. destruct s as [n r|x|p pe k ke r].
    + destruct H as (uri & Eu & En & R). rewrite Eu, En. cbn [rbind]. apply relation_ok in R. exists (KName n r). split; [|constructor]. destruct (expect (value w_relation l)) as [z|e]; [|discriminate R]. cbn [rbind] in *. rewrite R. reflexivity.
    + destruct H as (Nn & e & Ee & X). rewrite Nn, Ee. destruct (regex_new e x X) as (y & Ey & Ry). rewrite Ey. cbn [wrap rbind]. exists (KRegex y). split; [reflexivity|constructor; exact Ry].
    + destruct H as (Nn & Nr & h & Eh & (p' & Ep & Xp) & Epe & (k' & Ek & Xk) & Eke & R). rewrite Nn, Nr, Eh. words. rewrite Ek, Eke. cbn [expect rbind]. rewrite Ep, Epe. cbn [expect rbind]. apply relation_ok in R. destruct (value w_h_relation h) as [z|]; [|discriminate R]. cbn [expect rbind] in *. rewrite R. cbn [rbind]. destruct (hyper_ok p' p pe k' k ke r Xp Xk) as (c & Ec & Rc). rewrite Ec. exists c. split; [reflexivity|exact Rc].
Qed.
Lemma checker_inv : forall t c, k_create re_groups t = Ok c -> exists s, reads_checker re_groups t s.
Proof.
  intros t c E. unfold k_create in E. words_in E. apply bind_ok in E. destruct E as (v & Ev & E). apply expect_ok in Ev. destruct (zlist_eqb (lower v) w_customized) eqn:T.
  - apply (says_eqb w_type w_customized t v Ev) in T. unfold customized in E. words_in E. destruct (select [w_key_locator] t) as [|l [|? ?]] eqn:El; [discriminate E| |discriminate E]. unfold createKeyLocator in E. words_in E. apply bind_ok in E. destruct E as (v' & Ev' & E). apply expect_ok in Ev'. destruct (zlist_eqb (lower v') w_name) eqn:Tl; [|discriminate E]. apply (says_eqb w_type w_name l v' Ev') in Tl.
    assert (K : forall s, match s with
      | CName n r => name_of l n r
      | CRegex x => value w_name l = None /\ regex_in re_groups w_regex l x
      | CHyper p pe k ke r => value w_name l = None /\ value w_regex l = None /\ exists h, select [w_hyper_relation] l = [h] /\
          regex_in re_groups w_p_regex h p /\ value w_p_expand h = Some pe /\ regex_in re_groups w_k_regex h k /\ value w_k_expand h = Some ke /\ relation_of w_h_relation h r
      end -> exists s, reads_checker re_groups t s) by (intros s H; exists s; right; split; [exact T|]; exists l; split; [exact El|]; split; [exact Tl|exact H]).
    unfold createKeyLocatorName in E. words_in E. destruct (value w_name l) as [uri|] eqn:Eu.
    + apply bind_ok in E. destruct E as (n & En & E). apply bind_ok in E. destruct E as (z & Ez & E). apply bind_ok in E. destruct E as (r & Er & _). apply (K (CName n r)). exists uri. split; [exact Eu|]. split; [exact En|]. apply relation_ok. rewrite Ez. exact Er.
    + destruct (value w_regex l) as [e|] eqn:Ee.
      * apply bind_ok in E. destruct E as (y & Ey & _). apply wrap_ok in Ey. destruct (regex_inv e y Ey) as [x X]. apply (K (CRegex x)). split; [reflexivity|]. exists e. split; [exact Ee|exact X].
      * destruct (select [w_hyper_relation] l) as [|h [|? ?]] eqn:Eh; [discriminate E| |discriminate E]. words_in E. apply bind_ok in E. destruct E as (k & Ek & E). apply bind_ok in E. destruct E as (ke & Eke & E). apply bind_ok in E. destruct E as (hr & Ehr & E). apply bind_ok in E. destruct E as (p & Ep & E). apply bind_ok in E. destruct E as (pe & Epe & E). apply bind_ok in E. destruct E as (r & Er & E). apply wrap_ok in E. unfold hyper_new in E. apply bind_ok in E. destruct E as (px & Epx & E). apply bind_ok in E. destruct E as (kx & Ekx & _). apply expect_ok in Ek, Eke, Ep, Epe. destruct (regex_inv _ _ Epx) as [sp Xp]. destruct (regex_inv _ _ Ekx) as [sk Xk].
        apply (K (CHyper sp pe sk ke r)). split; [reflexivity|]. split; [reflexivity|]. exists h. split; [reflexivity|]. split; [exists p; auto|]. split; [exact Epe|]. split; [exists k; auto|]. split; [exact Eke|]. apply relation_ok. rewrite Ehr. exact Er.
  - destruct (zlist_eqb (lower v) w_hierarchical) eqn:Th; [|discriminate E]. apply (says_eqb w_type w_hierarchical t v Ev) in Th. exists hier_checker. left. auto.
Qed.

(** ** Rules *)
Lemma map_ok : forall (X Y Z : Type) (f : X -> res Y) (R : X -> Z -> Prop) (Q : Y -> Z -> Prop) l m, (forall x z, R x z -> exists y, f x = Ok y /\ Q y z) -> Forall2 R l m -> exists r, map_res f l = Ok r /\ Forall2 Q r m.
Proof.
  intros X Y Z f R Q l m H F. induction F as [|x z l m Hx F IH]; cbn [map_res]; [exists []; split; [reflexivity|constructor]|]. destruct (H x z Hx) as (y & Ey & Qy). destruct IH as (r & Er & Qr). rewrite Ey, Er. cbn [rbind]. exists (y :: r). split; [reflexivity|constructor; assumption].
Qed.
Lemma map_inv : forall (X Y Z : Type) (f : X -> res Y) (R : X -> Z -> Prop) l r, (forall x y, f x = Ok y -> exists z, R x z) -> map_res f l = Ok r -> exists m, Forall2 R l m /\ length m = length r.
Proof.
  intros X Y Z f R l. induction l as [|x l IH]; intros r H E; cbn [map_res] in E; [injection E as <-; exists []; split; [constructor|reflexivity]|]. apply bind_ok in E. destruct E as (y & Ey & E). apply bind_ok in E. destruct E as (r' & Er & E). injection E as <-. destruct (H x y Ey) as [z Rz]. destruct (IH r' H Er) as (m & F & Lm). exists (z :: m). split; [constructor; assumption|cbn [length]; f_equal; exact Lm].
Qed.
Lemma rule_ok : forall t s, reads_rule re_groups t s -> exists r, r_create re_groups t = Ok r /\ rep_r r s.
Proof.
  intros t s (Id & U & F & Cs & Nc). unfold r_create. words. destruct (value w_id t) as [id|]; [|congruence]. destruct U as (v & Ev & Lv). rewrite Ev. cbn [expect rbind]. apply reads_lower in Lv. rewrite Lv.
  destruct (map_ok _ _ _ (f_create re_groups) _ rep_f _ _ filter_ok F) as (fs & Ef & Rf). destruct (map_ok _ _ _ (k_create re_groups) _ rep_c _ _ checker_ok Cs) as (cs & Ec & Rc). rewrite Ef, Ec. cbn [rbind].
  assert (Ncs : cs <> []) by (intros ->; inversion Rc; congruence).
  destruct (s_interest s) eqn:Si.
  - change (zlist_eqb w_interest w_data) with false. change (zlist_eqb w_interest w_interest) with true. cbv iota. cbn [rbind]. destruct cs as [|c cs]; [congruence|]. eexists. split; [reflexivity|]. split; [symmetry; exact Si|]. split; [exact Rf|]. split; [exact Rc|exact Nc].
  - change (zlist_eqb w_data w_data) with true. cbv iota. cbn [rbind]. destruct cs as [|c cs]; [congruence|]. eexists. split; [reflexivity|]. split; [symmetry; exact Si|]. split; [exact Rf|]. split; [exact Rc|exact Nc].
Qed.
Lemma rule_inv : forall t r, r_create re_groups t = Ok r -> exists s, reads_rule re_groups t s.
Proof.
  intros t r E. unfold r_create in E. words_in E. apply bind_ok in E. destruct E as (id & Ei & E). apply expect_ok in Ei. apply bind_ok in E. destruct E as (v & Ev & E). apply expect_ok in Ev. apply bind_ok in E. destruct E as (isI & Es & E). apply bind_ok in E. destruct E as (fs & Ef & E). apply bind_ok in E. destruct E as (cs & Ec & E).
  destruct (map_inv _ _ _ _ (reads_filter re_groups) _ _ filter_inv Ef) as (sf & Ff & _). destruct (map_inv _ _ _ _ (reads_checker re_groups) _ _ checker_inv Ec) as (sc & Fc & Lc). exists (SRule isI sf sc). split; [congruence|]. split; [|split; [exact Ff|split; [exact Fc|]]].
  - cbn [s_interest]. destruct (zlist_eqb (lower v) w_data) eqn:D; [injection Es as <-; apply (says_eqb _ _ _ _ Ev); exact D|]. destruct (zlist_eqb (lower v) w_interest) eqn:D'; [injection Es as <-; apply (says_eqb _ _ _ _ Ev); exact D'|discriminate Es].
  - cbn [s_checkers]. intros ->. destruct cs; [discriminate E|discriminate Lc].
Qed.
Lemma kind_app : forall isI a b, of_kind isI (a ++ b) = of_kind isI a ++ of_kind isI b.
Proof. intros isI a b. apply filter_app. Qed.
Lemma rules_ok : forall l cfg c cfg0, Forall2 (reads_rule re_groups) l cfg -> rep_p c cfg0 -> exists c', load_rules re_groups l c = (c', None) /\ c_bypass c' = c_bypass c /\ c_configured c' = c_configured c /\ rep_p c' (cfg0 ++ cfg).
Proof.
  intros l cfg c cfg0 F. revert c cfg0. induction F as [|t s l cfg H F IH]; intros c cfg0 R; cbn [load_rules].
  - exists c. rewrite app_nil_r. auto.
  - destruct (rule_ok t s H) as (r & Er & Rr). rewrite Er. specialize (IH (if r_interest r then Policy (c_bypass c) (c_configured c) (c_data c) (c_interest c ++ [r]) else Policy (c_bypass c) (c_configured c) (c_data c ++ [r]) (c_interest c)) (cfg0 ++ [s])). destruct IH as (c' & E & B & Cf & Rp).
    + destruct R as [R1 R2]. pose proof (proj1 Rr) as Ei. split; rewrite kind_app; unfold of_kind at 2; cbn [List.filter]; rewrite <- Ei; destruct (r_interest r); cbn [Bool.eqb c_data c_interest]; rewrite ?app_nil_r; try assumption; (apply Forall2_app; [assumption|constructor; [exact Rr|constructor]]).
    + exists c'. split; [exact E|]. split; [rewrite B; destruct (r_interest r); reflexivity|]. split; [rewrite Cf; destruct (r_interest r); reflexivity|]. rewrite <- app_assoc in Rp. exact Rp.
Qed.
Lemma rules_inv : forall l c c', load_rules re_groups l c = (c', None) -> exists cfg, Forall2 (reads_rule re_groups) l cfg.
Proof.
  induction l as [|t l IH]; intros c c' E; cbn [load_rules] in E; [exists []; constructor|]. destruct (r_create re_groups t) as [r|e] eqn:Er; [|discriminate E]. destruct (rule_inv t r Er) as [s Rs]. destruct (IH _ _ E) as [cfg F]. exists (s :: cfg). constructor; assumption.
Qed.

(** ** Trust anchors *)
Lemma digits_span : forall t, (exists d c rest, digits_ok d /\ ~ 48 <= c <= 57 /\ t = d ++ c :: rest /\ span_digits t = (d, c :: rest)) \/ (forall d c rest, digits_ok d -> ~ 48 <= c <= 57 -> t <> d ++ c :: rest) /\ (fst (span_digits t) = [] \/ snd (span_digits t) = []).
Proof.
  intros t. destruct (span_digits t) as [a b] eqn:E. cbn [fst snd]. pose proof (span_inv _ _ _ E) as [Et Fa].
  assert (U : forall d c rest, digits_ok d -> ~ 48 <= c <= 57 -> t = d ++ c :: rest -> a = d /\ b = c :: rest). { intros d c rest [_ Fd] Nc ->. rewrite span_ok in E; [injection E; auto|exact Fd|]. cbn [no_digit]. unfold is_digit. lia. }
  destruct a as [|x a]; [right|]. { split; [|left; reflexivity]. intros d c rest D Nc X. destruct (U _ _ _ D Nc X) as [<- _]. destruct D as [N _]. congruence. }
  destruct b as [|c rest]; [right|]. { split; [|right; reflexivity]. intros d c rest D Nc X. destruct (U _ _ _ D Nc X) as [_ Y]. discriminate Y. }
  left. exists (x :: a), c, rest. split; [split; [discriminate|exact Fa]|]. split; [|split; [exact Et|reflexivity]]. 
  clear U Fa. intros Hc. assert (G : forall t a b, span_digits t = (a, b) -> match b with [] => True | c :: _ => is_digit c = false end). { induction t0 as [|y t0 IH]; intros a0 b0 S0; cbn [span_digits] in S0; [injection S0 as <- <-; exact I|]. destruct (is_digit y) eqn:D; [|injection S0 as <- <-; exact D]. destruct (span_digits t0) as [a1 b1]. cbn [fst snd] in S0. injection S0 as <- <-. exact (IH _ _ eq_refl). } specialize (G _ _ _ E). cbn in G. unfold is_digit in G. lia.
Qed.
Lemma refresh_ok : forall t, refresh_text (value w_refresh t) (getRefreshPeriod t).
Proof.
  intros t. unfold getRefreshPeriod. words. destruct (value w_refresh t) as [v|]; [|constructor]. unfold refresh_parse. destruct (digits_span v) as [(d & c & rest & D & Nc & Ev & ->)|[N O]].
  - destruct d as [|x d]; [destruct D; congruence|]. set (ds := x :: d) in *. assert (H : forall z, ((c <> 115 /\ c <> 109 /\ c <> 104) \/ decimal ds = 0) -> z = 3600000 -> refresh_text (Some v) z).
    { intros z Hz ->. constructor. intros d' c' rest' D' N' Hc' X. assert (Y : ds = d' /\ c = c'). { assert (Es : span_digits v = (d', c' :: rest')) by (rewrite X; apply span_ok; [apply D'|cbn; unfold is_digit; lia]). assert (Es' : span_digits v = (ds, c :: rest)) by (rewrite Ev; apply span_ok; [apply D|cbn; unfold is_digit; lia]). rewrite Es in Es'. injection Es' as -> -> _. auto. } destruct Y as [-> ->]. destruct Hz as [Hz|Hz]; [lia|congruence]. }
    destruct (Z.eqb_spec c 104) as [->|N1]; [|destruct (Z.eqb_spec c 109) as [->|N2]; [|destruct (Z.eqb_spec c 115) as [->|N3]]]; cbn [orb]; cbv zeta; rewrite ?int_decimal.
    + change (104 =? 115) with false. change (104 =? 109) with false. cbn [negb]. destruct (Z.eqb_spec (decimal ds * 60 * 60) 0) as [Z0|Z0]; [apply H; [right; lia|reflexivity]|]. rewrite Ev. replace (decimal ds * 60 * 60 * 1000) with (decimal ds * 3600 * 1000) by lia. apply Rf_unit; [exact D|lia|auto].
    + change (109 =? 115) with false. change (109 =? 109) with true. cbn [negb]. destruct (Z.eqb_spec (decimal ds * 60) 0) as [Z0|Z0]; [apply H; [right; lia|reflexivity]|]. rewrite Ev. apply Rf_unit; [exact D|lia|auto].
    + change (115 =? 115) with true. cbn [negb]. destruct (Z.eqb_spec (decimal ds) 0) as [Z0|Z0]; [apply H; [right; lia|reflexivity]|]. rewrite Ev. replace (decimal ds * 1000) with (decimal ds * 1 * 1000) by lia. apply Rf_unit; [exact D|lia|auto].
    + apply H; [left; auto|reflexivity].
  - assert (P : refresh_parse v = None) by (unfold refresh_parse; destruct (span_digits v) as [a b]; cbn [fst snd] in O; destruct O as [-> | ->]; [reflexivity|]; destruct a; reflexivity).
    unfold refresh_parse in P. rewrite P. constructor. intros d c rest D _ Hc. apply N; [exact D|lia].
Qed.
Lemma unit_inj : forall d c rest d' c' rest', digits_ok d -> digits_ok d' -> ~ 48 <= c <= 57 -> ~ 48 <= c' <= 57 -> d ++ c :: rest = d' ++ c' :: rest' -> d = d' /\ c = c'.
Proof.
  intros d c rest d' c' rest' [_ D] [_ D'] N N' X. assert (E : span_digits (d ++ c :: rest) = (d, c :: rest)) by (apply span_ok; [exact D|cbn; unfold is_digit; lia]). rewrite X, span_ok in E; [injection E as -> -> _; auto|exact D'|cbn; unfold is_digit; lia].
Qed.
Lemma refresh_fun : forall o p q, refresh_text o p -> refresh_text o q -> p = q.
Proof.
  intros o p q H H'. assert (G : forall (c f : Z), (c, f) = (115, 1) \/ (c, f) = (109, 60) \/ (c, f) = (104, 3600) -> (c = 115 \/ c = 109 \/ c = 104)) by (intros c f [E|[E|E]]; injection E as -> ->; auto).
  destruct H as [|d c f rest D N F|t N].
  - remember None as o eqn:Eo. destruct H' as [| |]; [reflexivity|discriminate Eo|discriminate Eo].
  - remember (Some (d ++ c :: rest)) as o eqn:Eo. destruct H' as [|d' c' f' rest' D' N' F'|t' N']; [discriminate Eo| |].
    + injection Eo as X. assert (Gc := G _ _ F). assert (Gc' := G _ _ F'). apply unit_inj in X; [|assumption|assumption|lia|lia]. destruct X as [-> ->]. replace f' with f; [reflexivity|]. destruct F as [F|[F|F]], F' as [F'|[F'|F']]; congruence.
    + injection Eo as ->. exfalso. eapply N'; [exact D|exact N|exact (G _ _ F)|reflexivity].
  - remember (Some t) as o eqn:Eo. destruct H' as [|d' c' f' rest' D' N' F'|t' N']; [discriminate Eo| |reflexivity]. injection Eo as <-. exfalso. eapply N; [exact D'|exact N'|exact (G _ _ F')|reflexivity].
Qed.

Variable K : Type.
Variable b64decode : str -> res bytes.
Variable wireDecode : bytes -> res K.
Variable loading : action K -> option Base.exn.
Notation process_anchor := (process_anchor K b64decode wireDecode loading).
Notation load_anchors := (load_anchors K b64decode wireDecode loading).
Notation conf_load := (conf_load re_groups K b64decode wireDecode loading).
Notation reads_anchor := (reads_anchor K b64decode wireDecode).
Definition anchor_of (a : option (action K)) : list (action K) := match a with Some x => [x] | None => [] end.
Lemma anchor_ok : forall t a, reads_anchor t a -> process_anchor t = (match a with None => true | Some _ => false end, anchor_of a, match a with None => None | Some x => loading x end).
Proof.
  intros t a H. unfold ConfModel.process_anchor. words. destruct a as [[| |f period isDir|c]|]; cbn [ConfSpec.reads_anchor anchor_of] in *; [contradiction|contradiction| | |].
  - destruct H as [H R]. assert (Ep : period = getRefreshPeriod t) by (eapply refresh_fun; [exact R|apply refresh_ok]). subst period. destruct isDir; destruct H as [(v & -> & Lv) E]; apply reads_lower in Lv; rewrite Lv.
    + change (zlist_eqb w_dir w_file) with false. change (zlist_eqb w_dir w_base64) with false. change (zlist_eqb w_dir w_dir) with true. cbv iota. words. rewrite E. reflexivity.
    + change (zlist_eqb w_file w_file) with true. cbv iota. words. rewrite E. reflexivity.
  - destruct H as [(v & -> & Lv) (x & b & E & Eb & Ec)]. apply reads_lower in Lv; rewrite Lv. change (zlist_eqb w_base64 w_file) with false. change (zlist_eqb w_base64 w_base64) with true. cbv iota. words. rewrite E, Eb, Ec. reflexivity.
  - destruct H as (v & -> & Lv). apply reads_lower in Lv; rewrite Lv. reflexivity.
Qed.
Lemma anchor_inv : forall t b acts, process_anchor t = (b, acts, None) -> exists a, reads_anchor t a /\ match a with Some x => loading x = None | None => True end.
Proof.
  intros t b acts E. unfold ConfModel.process_anchor, perform in E. words_in E. destruct (value w_type t) as [v|] eqn:Ev; [|discriminate E]. destruct (zlist_eqb (lower v) w_file) eqn:E1; [|destruct (zlist_eqb (lower v) w_base64) eqn:E2; [|destruct (zlist_eqb (lower v) w_dir) eqn:E3; [|destruct (zlist_eqb (lower v) w_any) eqn:E4; [|discriminate E]]]].
  - apply (says_eqb _ _ _ _ Ev) in E1. words_in E. destruct (value w_file_name t) as [f|] eqn:Ef; [|discriminate E]. injection E as _ _ E. exists (Some (ALoad K f (getRefreshPeriod t) false)). split; [split; [split; [exact E1|exact Ef]|apply refresh_ok]|exact E].
  - apply (says_eqb _ _ _ _ Ev) in E2. words_in E. destruct (value w_base64_string t) as [x|] eqn:Ex; [|discriminate E]. destruct (b64decode x) as [bs|e] eqn:Eb; [|discriminate E]. destruct (wireDecode bs) as [c|e] eqn:Ec; [|discriminate E]. injection E as _ _ E. exists (Some (ACert K c)). split; [split; [exact E2|exists x, bs; auto]|exact E].
  - apply (says_eqb _ _ _ _ Ev) in E3. words_in E. destruct (value w_dir t) as [f|] eqn:Ef; [|discriminate E]. injection E as _ _ E. exists (Some (ALoad K f (getRefreshPeriod t) true)). split; [split; [split; [exact E3|exact Ef]|apply refresh_ok]|exact E].
  - apply (says_eqb _ _ _ _ Ev) in E4. exists None. split; [exact E4|exact I].
Qed.
Definition has_any (l : list (option (action K))) : bool := existsb (fun a => match a with None => true | Some _ => false end) l.
Lemma anchors_ok : forall l m c, Forall2 reads_anchor l m -> Forall (fun a => loading a = None) (flat_map anchor_of m) ->
  load_anchors l c = (Policy (c_bypass c || has_any m) (c_configured c) (c_data c) (c_interest c), flat_map anchor_of m, None).
Proof.
  intros l m c F. revert c. induction F as [|t a l m H F IH]; intros c G; cbn [ConfModel.load_anchors flat_map has_any existsb] in *.
  - rewrite orb_false_r. destruct c; reflexivity.
  - apply Forall_app in G. destruct G as [Ga G]. rewrite (anchor_ok t a H). destruct a as [x|]; cbn [anchor_of] in *.
    + inversion Ga; subst. match goal with X : loading x = None |- _ => rewrite X end. rewrite (IH c G). reflexivity.
    + rewrite IH by exact G. cbn [c_bypass c_configured c_data c_interest orb]. rewrite orb_true_r. reflexivity.
Qed.
Lemma anchors_inv : forall l c c' acts, load_anchors l c = (c', acts, None) -> exists m, Forall2 reads_anchor l m /\ Forall (fun a => loading a = None) (flat_map anchor_of m).
Proof.
  induction l as [|t l IH]; intros c c' acts E; cbn [ConfModel.load_anchors] in E; [exists []; split; constructor|]. destruct (process_anchor t) as [[b a] [e|]] eqn:Ea; [discriminate E|]. destruct (load_anchors l _) as [[c1 a1] e1] eqn:El. injection E as _ _ ->. destruct (anchor_inv t b a Ea) as (x & Rx & Lx). destruct (IH _ _ _ El) as (m & F & G). exists (x :: m). split; [constructor; assumption|]. cbn [flat_map]. apply Forall_app. split; [|exact G]. destruct x as [x|]; cbn [anchor_of]; [constructor; [exact Lx|constructor]|constructor].
Qed.

(** ** Loading *)
Definition resets (c : policy) : list (action K) := if c_configured c then [AResetAnchors K; AResetVerified K] else [].
Lemma load_start : forall c t, (c_configured c = false -> c = c_new) -> conf_load c t = let '(c', acts, e) := conf_load c_new t in (c', resets c ++ acts, e).
Proof.
  intros c t H. unfold ConfModel.conf_load, resets. destruct (c_configured c) eqn:E.
  - cbn [c_new c_configured c_bypass c_data c_interest]. words. destruct (select [w_validator] t) as [|v [|? ?]]; [reflexivity| |reflexivity]. destruct (load_rules re_groups _ _) as [c2 [e|]]; [reflexivity|]. destruct (load_anchors _ c2) as [[c3 a3] e3]. reflexivity.
  - rewrite (H eq_refl). cbn [c_new c_configured c_bypass c_data c_interest]. destruct (t_getitem t w_validator) as [|v [|? ?]]; [reflexivity| |reflexivity]. destruct (load_rules re_groups _ _) as [c2 [e|]]; [reflexivity|]. destruct (load_anchors _ c2) as [[c3 a3] e3]. reflexivity.
Qed.
Lemma load_ok : forall t cfg m, reads re_groups t cfg -> reads_anchors K b64decode wireDecode t m -> Forall (fun a => loading a = None) (flat_map anchor_of m) ->
  exists c, conf_load c_new t = (c, flat_map anchor_of m, None) /\ c_bypass c = has_any m /\ c_configured c = true /\ rep_p c cfg.
Proof.
  intros t cfg m (v & Ev & F) (v' & Ev' & F') G. assert (v' = v) by congruence. subst v'. unfold ConfModel.conf_load. cbn [c_new c_configured c_bypass c_data c_interest]. words. rewrite Ev. words.
  destruct (rules_ok _ _ (Policy false true [] []) [] F) as (c2 & E2 & B & Cf & R); [split; constructor|]. rewrite E2. rewrite (anchors_ok _ m c2 F' G). eexists. split; [reflexivity|]. cbn [c_bypass c_configured app] in *. rewrite B. split; [reflexivity|]. split; [exact Cf|exact R].
Qed.
Lemma load_inv : forall t c acts, conf_load c_new t = (c, acts, None) -> exists cfg m, reads re_groups t cfg /\ reads_anchors K b64decode wireDecode t m /\ Forall (fun a => loading a = None) (flat_map anchor_of m).
Proof.
  intros t c acts E. unfold ConfModel.conf_load in E. cbn [c_new c_configured c_bypass c_data c_interest] in E. words_in E. destruct (select [w_validator] t) as [|v [|? ?]] eqn:Ev; [discriminate E| |discriminate E]. words_in E. destruct (load_rules re_groups _ _) as [c2 [e|]] eqn:E2; [discriminate E|]. destruct (load_anchors _ c2) as [[c3 a3] e3] eqn:E3. injection E as _ _ ->. destruct (rules_inv _ _ _ E2) as [cfg F]. destruct (anchors_inv _ _ _ _ E3) as (m & F' & G). exists cfg, m. split; [exists v; auto|]. split; [exists v; auto|exact G].
Qed.

(** *** Errors *)
Definition cause (e : Base.exn) : Prop := e = OtherError \/ (exists uri, n_set uri = Err e) \/ (exists x, b64decode x = Err e) \/ exists a, loading a = Some e.
Lemma relation_err : forall k t e, (v <-- expect (value k t) ;; getNameRelation v) = Err e -> cause e.
Proof. intros k t e E. left. apply bind_err in E. destruct E as [E|(v & _ & E)]; [eapply expect_err; exact E|eapply getRel_err; exact E]. Qed.
Lemma filter_err : forall t e, f_create re_groups t = Err e -> cause e.
Proof.
  intros t e E. unfold f_create in E. apply bind_err in E. destruct E as [E|(v & _ & E)]; [left; eapply expect_err; exact E|]. destruct (zlist_eqb _ _); [|injection E as <-; left; reflexivity]. unfold createNameFilter in E. destruct (getFirstValue t w_name) as [uri|].
  - apply bind_err in E. destruct E as [E|(n & _ & E)]; [right; left; eauto|]. apply bind_err in E. destruct E as [E|(z & _ & E)]; [left; eapply expect_err; exact E|]. apply bind_err in E. destruct E as [E|(r & _ & E)]; [left; eapply getRel_err; exact E|discriminate E].
  - destruct (getFirstValue t w_regex) as [x|]; [|injection E as <-; left; reflexivity]. apply bind_err in E. destruct E as [E|(y & _ & E)]; [left; eapply wrap_err; exact E|discriminate E].
Qed.
Lemma checker_err : forall t e, k_create re_groups t = Err e -> cause e.
Proof.
  intros t e E. unfold k_create in E. apply bind_err in E. destruct E as [E|(v & _ & E)]; [left; eapply expect_err; exact E|]. destruct (zlist_eqb _ _).
  - unfold customized in E. destruct (t_getitem t w_key_locator) as [|l [|? ?]]; [injection E as <-; left; reflexivity| |injection E as <-; left; reflexivity]. unfold createKeyLocator in E. apply bind_err in E. destruct E as [E|(v' & _ & E)]; [left; eapply expect_err; exact E|]. destruct (zlist_eqb _ _); [|injection E as <-; left; reflexivity]. unfold createKeyLocatorName in E. destruct (getFirstValue l w_name) as [uri|].
    + apply bind_err in E. destruct E as [E|(n & _ & E)]; [right; left; eauto|]. apply bind_err in E. destruct E as [E|(z & _ & E)]; [left; eapply expect_err; exact E|]. apply bind_err in E. destruct E as [E|(r & _ & E)]; [left; eapply getRel_err; exact E|discriminate E].
    + destruct (getFirstValue l w_regex) as [x|]; [apply bind_err in E; destruct E as [E|(y & _ & E)]; [left; eapply wrap_err; exact E|discriminate E]|]. left. destruct (t_getitem l w_hyper_relation) as [|h [|? ?]]; [injection E as <-; reflexivity| |injection E as <-; reflexivity].
      do 5 (apply bind_err in E; destruct E as [E|(? & _ & E)]; [eapply expect_err; exact E|]). apply bind_err in E. destruct E as [E|(r & _ & E)]; [eapply getRel_err; exact E|eapply wrap_err; exact E].
  - destruct (zlist_eqb _ _); [|injection E as <-; left; reflexivity]. destruct hier_ok as (c & Ec & _). congruence.
Qed.
Lemma map_err : forall (X Y : Type) (f : X -> res Y) l e, (forall x e, f x = Err e -> cause e) -> map_res f l = Err e -> cause e.
Proof. intros X Y f l e H. induction l as [|x l IH]; intros E; cbn [map_res] in E; [discriminate E|]. apply bind_err in E. destruct E as [E|(y & _ & E)]; [eauto|]. apply bind_err in E. destruct E as [E|(r & _ & E)]; [auto|discriminate E]. Qed.
Lemma rule_err : forall t e, r_create re_groups t = Err e -> cause e.
Proof.
  intros t e E. unfold r_create in E. apply bind_err in E. destruct E as [E|(id & _ & E)]; [left; eapply expect_err; exact E|]. apply bind_err in E. destruct E as [E|(v & _ & E)]; [left; eapply expect_err; exact E|]. apply bind_err in E. destruct E as [E|(isI & _ & E)]; [destruct (zlist_eqb _ _); [discriminate E|]; destruct (zlist_eqb _ _); [discriminate E|injection E as <-; left; reflexivity]|]. apply bind_err in E. destruct E as [E|(fs & _ & E)]; [eapply map_err; [exact filter_err|exact E]|]. apply bind_err in E. destruct E as [E|(cs & _ & E)]; [eapply map_err; [exact checker_err|exact E]|]. destruct cs; [injection E as <-; left; reflexivity|discriminate E].
Qed.
Lemma rules_err : forall l c c' e, load_rules re_groups l c = (c', Some e) -> cause e.
Proof. induction l as [|t l IH]; intros c c' e E; cbn [load_rules] in E; [discriminate E|]. destruct (r_create re_groups t) as [r|e'] eqn:Er; [eapply IH; exact E|]. injection E as _ <-. eapply rule_err. exact Er. Qed.
Lemma anchor_err : forall t b a e, process_anchor t = (b, a, Some e) -> cause e.
Proof.
  intros t b a e E. unfold ConfModel.process_anchor, perform in E. destruct (getFirstValue t w_type) as [v|]; [|injection E as _ _ <-; left; reflexivity]. destruct (zlist_eqb _ _); [|destruct (zlist_eqb _ _); [|destruct (zlist_eqb _ _); [|destruct (zlist_eqb _ _); [discriminate E|injection E as _ _ <-; left; reflexivity]]]].
  - destruct (getFirstValue t w_file_name); [|injection E as _ _ <-; left; reflexivity]. injection E as _ _ E. right. right. right. eauto.
  - destruct (getFirstValue t w_base64_string) as [x|]; [|injection E as _ _ <-; left; reflexivity]. destruct (b64decode x) as [bs|e'] eqn:Eb; [|injection E as _ _ <-; right; right; left; eauto]. destruct (wireDecode bs) as [c|]; [|injection E as _ _ <-; left; reflexivity]. injection E as _ _ E. right. right. right. eauto.
  - destruct (getFirstValue t w_dir); [|injection E as _ _ <-; left; reflexivity]. injection E as _ _ E. right. right. right. eauto.
Qed.
Lemma anchors_err : forall l c c' a e, load_anchors l c = (c', a, Some e) -> cause e.
Proof. induction l as [|t l IH]; intros c c' a e E; cbn [ConfModel.load_anchors] in E; [discriminate E|]. destruct (process_anchor t) as [[b x] [e'|]] eqn:Ea; [injection E as _ _ <-; eapply anchor_err; exact Ea|]. destruct (load_anchors l _) as [[c1 a1] e1] eqn:El. injection E as _ _ ->. eapply IH. exact El. Qed.
Lemma load_err : forall c t c' acts e, conf_load c t = (c', acts, Some e) -> cause e.
Proof.
  intros c t c' acts e E. unfold ConfModel.conf_load in E. destruct (if c_configured c then _ else _) as [c1 a1]. destruct (t_getitem t w_validator) as [|v [|? ?]]; [injection E as _ _ <-; left; reflexivity| |injection E as _ _ <-; left; reflexivity]. destruct (load_rules re_groups _ _) as [c2 [e'|]] eqn:E2; [injection E as _ _ <-; eapply rules_err; exact E2|]. destruct (load_anchors _ c2) as [[c3 a3] e3] eqn:E3. injection E as _ _ ->. eapply anchors_err. exact E3.
Qed.
End C.
