(** * Proofs about the top matcher of NDN regular expressions *)
From Verif Require Import Base BaseLemmas NameModel UriModel BlobModel RegexModel RegexSpec RegexProofs RegexProofs2 RegexProofs3.
From Coq Require Import Arith.
Local Open Scope res_scope.

Definition anyi : item := One [46; 42] QStar.
Definition tail (stop : bool) : list item := if stop then [] else [anyi].

(** ** "<.*>*" at the end of a text is an item *)
Lemma sub_pattern_any : forall l r, (l = 40 /\ r = 41) \/ (l = 60 /\ r = 62) \/ (l = 91 /\ r = 93) -> forall x d a b, sub_pattern l r (S d) (x ++ ANY) = Ok (a, b) ->
  exists x', b = x' ++ ANY /\ sub_pattern l r (S d) x = Ok (a, x').
Proof.
  intros l r Hlr. induction x as [|c x IH]; intros d a b.
  - destruct Hlr as [[-> ->]|[[-> ->]|[-> ->]]]; intros H; discriminate H.
  - cbn [app sub_pattern]. destruct (if c =? r then _ else _) as [|n].
    + intros [= <- <-]. exists x. split; reflexivity.
    + destruct (sub_pattern l r (S n) (x ++ ANY)) as [[a' b']|] eqn:E; [|discriminate]. intros [= <- <-]. destruct (IH _ _ _ E) as (x' & -> & ->). exists x'. split; reflexivity.
Qed.
Lemma to_brace_any : forall x a b, to_brace (x ++ ANY) = Ok (a, b) -> exists x', b = x' ++ ANY /\ to_brace x = Ok (a, x').
Proof.
  induction x as [|c x IH]; intros a b; [intros H; discriminate H|]. cbn [app to_brace]. destruct (c =? 125); [intros [= <- <-]; exists x; split; reflexivity|].
  destruct (to_brace (x ++ ANY)) as [[a' b']|] eqn:E; [|discriminate]. intros [= <- <-]. destruct (IH _ _ eq_refl) as (x' & -> & ->). exists x'. split; reflexivity.
Qed.
Lemma repetition_any : forall x a b, repetition (x ++ ANY) = Ok (a, b) -> exists x', b = x' ++ ANY /\ repetition x = Ok (a, x').
Proof.
  intros [|c x] a b; [cbn; intros [= <- <-]; exists []; split; reflexivity|]. cbn [app repetition]. destruct ((c =? 43) || (c =? 63) || (c =? 42)); [intros [= <- <-]; exists x; split; reflexivity|].
  destruct (c =? 123); [apply (to_brace_any (c :: x))|]. intros [= <- <-]. exists (c :: x). split; reflexivity.
Qed.

Section P.
Variable re_groups : str -> res nat.
Variable re_search : str -> str -> option (list (option str)).
Notation nrefs := (nrefs re_groups).
Notation wf := (wf re_groups).
Notation t_ok := (t_ok re_groups).
Notation tr := (tr re_groups).
Notation lang := (lang re_search).
Notation lang_item := (lang_item re_search).
Notation caps_of := (caps_of re_groups re_search).
Notation caps_item := (caps_item re_groups re_search).
Notation strict := (strict re_search).
Notation top_new := (top_new re_groups).
Notation top_match := (top_match re_search).
Notation matches := (matches re_search).

Lemma list_any : forall fuel x k r, RegexModel.compile_list re_groups fuel (x ++ ANY) k = Ok r -> exists r', RegexModel.compile_list re_groups fuel x k = Ok r'.
Proof.
  induction fuel as [|f IH]; intros x k r.
  - destruct x; [intros H; discriminate H|]. intros H. discriminate H.
  - destruct x as [|c x]; [intros _; eexists; reflexivity|]. cbn [app RegexModel.compile_list]. destruct (Z.eqb_spec c 40) as [->|N].
    + destruct (sub_pattern 40 41 1 (x ++ ANY)) as [[a b]|] eqn:E1; [|discriminate]. cbn [rbind fst snd]. destruct (sub_pattern_any 40 41 ltac:(auto) _ _ _ _ E1) as (x' & -> & ->). cbn [rbind fst snd].
      destruct (repetition (x' ++ ANY)) as [[qa qb]|] eqn:E2; [|discriminate]. cbn [rbind fst snd]. destruct (repetition_any _ _ _ E2) as (x2 & -> & ->). cbn [rbind fst snd].
      destruct (RegexModel.compile_list re_groups f (removelast a) (S k)) as [g|]; [|discriminate]. cbn [rbind fst snd]. destruct (match qa with [] => _ | _ => _ end) as [m|]; [|discriminate]. cbn [rbind fst snd].
      destruct (RegexModel.compile_list re_groups f (x2 ++ ANY) (snd g)) as [r'|] eqn:Er; [|discriminate]. intros _. destruct (IH _ _ _ Er) as (r2 & ->). eexists. reflexivity.
    + destruct ((c =? 60) || (c =? 91)) eqn:Ec; [|discriminate]. assert (Hc : c = 60 /\ (if c =? 60 then 62 else 93) = 62 \/ c = 91 /\ (if c =? 60 then 62 else 93) = 93) by (assert (X : c = 60 \/ c = 91) by lia; destruct X as [-> | ->]; auto). set (cl := if c =? 60 then 62 else 93) in *.
      destruct (sub_pattern c cl 1 (x ++ ANY)) as [[a b]|] eqn:E1; [|discriminate]. cbn [rbind fst snd]. destruct (sub_pattern_any c cl ltac:(auto) _ _ _ _ E1) as (x' & -> & ->). cbn [rbind fst snd].
      destruct (repetition (x' ++ ANY)) as [[qa qb]|] eqn:E2; [|discriminate]. cbn [rbind fst snd]. destruct (repetition_any _ _ _ E2) as (x2 & -> & ->). cbn [rbind fst snd].
      destruct (compile_set re_groups c a k) as [g|]; [|discriminate]. cbn [rbind fst snd]. destruct (parseRepetition qa) as [m|]; [|discriminate]. cbn [rbind fst snd].
      destruct (RegexModel.compile_list re_groups f (x2 ++ ANY) (snd g)) as [r'|] eqn:Er; [|discriminate]. intros _. destruct (IH _ _ _ Er) as (r2 & ->). eexists. reflexivity.
Qed.
Lemma compile_any : forall x r, compile re_groups (x ++ ANY) = Ok r -> exists e, wf e /\ x = e_text e.
Proof. intros x r H. unfold compile in H. apply list_any in H. destruct H as [r' H]. eapply list_inv. exact H. Qed.

(** ** Lists *)
Lemma e_text_app : forall a b, e_text (a ++ b) = e_text a ++ e_text b.
Proof. intros. apply flat_map_app. Qed.
Lemma lang_app : forall a b w, lang (a ++ b) w <-> exists u v, w = u ++ v /\ lang a u /\ lang b v.
Proof.
  induction a as [|i a IH]; intros b w; cbn [app RegexSpec.lang].
  - split; [intros H; exists [], w; auto|]. intros (u & v & -> & -> & H). exact H.
  - split.
    + intros (u & v & -> & A & B). apply IH in B. destruct B as (u2 & v2 & -> & B & C). exists (u ++ u2), v2. rewrite app_assoc. split; [reflexivity|]. split; [exists u, u2; auto|exact C].
    + intros (u & v & -> & (u1 & u2 & -> & A & B) & C). exists u1, (u2 ++ v). rewrite app_assoc. split; [reflexivity|]. split; [exact A|]. apply IH. exists u2, v. auto.
Qed.
Lemma caps_app : forall a b k w g, caps_of k (a ++ b) w g <-> exists u v g1 g2, w = u ++ v /\ g = g1 ++ g2 /\ caps_of k a u g1 /\ caps_of (k + nrefs a) b v g2.
Proof.
  induction a as [|i a IH]; intros b k w g; cbn [app RegexSpec.caps_of].
  - change (nrefs []) with 0%nat. rewrite Nat.add_0_r. split; [intros H; exists [], w, [], g; auto|]. intros (u & v & g1 & g2 & -> & -> & [-> ->] & H). exact H.
  - rewrite nrefs_cons. split.
    + intros (u & v & s1 & s2 & -> & -> & A & B). apply IH in B. destruct B as (u2 & v2 & g1 & g2 & -> & -> & B & C). exists (u ++ u2), v2, (s1 ++ g1), g2. rewrite !app_assoc. split; [reflexivity|]. split; [reflexivity|]. split; [exists u, u2, s1, g1; auto|]. rewrite Nat.add_assoc. exact C.
    + intros (u & v & g1 & g2 & -> & -> & (u1 & u2 & s1 & s2 & -> & -> & A & B) & C). exists u1, (u2 ++ v), s1, (s2 ++ g2). rewrite !app_assoc. split; [reflexivity|]. split; [reflexivity|]. split; [exact A|]. apply IH. exists u2, v, s2, g2. rewrite Nat.add_assoc in C. auto.
Qed.
Lemma nrefs_app : forall a b, nrefs (a ++ b) = (nrefs a + nrefs b)%nat.
Proof. intros a b. unfold RegexSpec.nrefs. rewrite map_app, list_sum_app. reflexivity. Qed.

Hypothesis any_groups : re_groups [46; 42] = Ok 0%nat.
Hypothesis any_search : forall s, re_search [46; 42] s <> None.

Lemma any_ok : t_ok [46; 42].
Proof.
  split; [|exists 0%nat; exact any_groups]. split; [reflexivity|]. intros p s E. assert (X : forall c, In c p -> c = 46 \/ c = 42) by (intros c I; assert (J : In c [46; 42]) by (rewrite E; apply in_or_app; auto); cbn in J; intuition lia). unfold count. replace (count_occ Z.eq_dec p 62) with 0%nat; [lia|]. symmetry. apply count_occ_not_In. intros I. apply X in I. lia.
Qed.
Lemma wf_any : wf [anyi].
Proof. constructor; [|constructor]. split; [exact any_ok|exact I]. Qed.
Lemma wf_tail : forall b, wf (tail b).
Proof. intros []; [constructor|exact wf_any]. Qed.
Lemma nrefs_any : nrefs [anyi] = 0%nat.
Proof. unfold RegexSpec.nrefs. cbn. unfold groups. rewrite any_groups. reflexivity. Qed.
Lemma nrefs_tail : forall b, nrefs (tail b) = 0%nat.
Proof. intros []; [reflexivity|exact nrefs_any]. Qed.
Lemma lang_any : forall w, lang [anyi] w.
Proof.
  intros w. cbn. exists w, []. rewrite app_nil_r. split; [reflexivity|]. split; [|reflexivity]. exists (map (fun c => [c]) w). split; [induction w as [|c w IH]; [reflexivity|]; cbn; rewrite <- IH; reflexivity|]. split.
  - apply Forall_forall. intros v I. apply in_map_iff in I. destruct I as (c & <- & _). exists c. split; [reflexivity|]. left. right. apply any_search.
  - split; [cbn; lia|exact I].
Qed.
Lemma strict_any : strict [anyi].
Proof. constructor; [exact I|constructor]. Qed.
Lemma caps_any : forall k w g, caps_of k [anyi] w g -> g = [].
Proof.
  intros k w g (u & v & s1 & s2 & -> & -> & (ws & _ & _ & _ & R) & [-> ->]). rewrite app_nil_r. destruct (rev ws) as [|v' ?]; [exact R|]. destruct R as (c & _ & R). cbn [set_caps] in R. destruct (re_search [46; 42] (c_toEscapedString c)) as [g|] eqn:E; [|exfalso; eapply any_search; exact E].
  destruct R as [_ ->]. unfold groups. rewrite any_groups. reflexivity.
Qed.
Lemma lang_tail : forall b w, lang (tail b) w <-> (b = true -> w = []).
Proof. intros [] w; cbn [tail]; split; [auto|intros H; apply H; reflexivity|intros _ H; discriminate H|intros _; apply lang_any]. Qed.
Lemma caps_tail : forall b k w g, caps_of k (tail b) w g -> g = [] /\ (b = true -> w = []).
Proof. intros [] k w g H; [destruct H as [-> ->]; auto|]. apply caps_any in H. split; [exact H|intros X; discriminate X]. Qed.
Lemma any_text : e_text [anyi] = ANY.
Proof. reflexivity. Qed.
Lemma tail_text : forall b e, e_text (e ++ tail b) = if b then e_text e else e_text e ++ ANY.
Proof. intros [] e; cbn [tail]; [rewrite app_nil_r; reflexivity|]. rewrite e_text_app, any_text. reflexivity. Qed.
Lemma tr_any : forall e, tr 0 (anyi :: e) = RegexProofs.tr_item re_groups 0 anyi :: tr 0 e.
Proof. intros e. cbn [RegexProofs.tr]. assert (E : RegexSpec.nrefs_item re_groups anyi = 0%nat) by (cbn; unfold groups; rewrite any_groups; reflexivity). rewrite E. reflexivity. Qed.

(** ** The object *)
Definition shape (start : bool) (e : list item) (stop : bool) (x : top) : Prop :=
  t_primary x = tr 0 (e ++ tail stop) /\ t_pn x = nrefs e /\
  (if start then t_secondary x = None else t_secondary x = Some (tr 0 (anyi :: e ++ tail stop)) /\ t_sn x = nrefs e).
Lemma e_text_nonempty : forall e, e <> [] -> e_text e <> [].
Proof. intros [|[] e] N; [congruence| | |]; discriminate. Qed.
Lemma last_q : forall q x, q_ok q -> last (x ++ q_text q) 0 <> 36 \/ q = QOne.
Proof.
  intros q x H. destruct (q_text_brace q H) as [->|[->|[->|[->|(a & E & _)]]]]; [right; reflexivity|left; cbn [q_text]; rewrite last_last; discriminate..|]. left. rewrite E. change (123 :: a ++ [125]) with ((123 :: a) ++ [125]). rewrite app_assoc, last_last. discriminate.
Qed.
Lemma last_item : forall i, RegexSpec.wf_item re_groups i -> last (i_text i) 0 <> 36.
Proof.
  intros i W. assert (G : forall x c q, q_ok q -> c <> 36 -> last (x ++ c :: q_text q) 0 <> 36).
  { intros x c q Hq Nc. replace (x ++ c :: q_text q) with ((x ++ [c]) ++ q_text q) by (rewrite <- app_assoc; reflexivity). destruct (last_q q (x ++ [c]) Hq) as [L| ->]; [exact L|]. cbn [q_text]. rewrite app_nil_r, last_last. exact Nc. }
  destruct i as [t q|neg ts q|l q]; cbn [i_text].
  - unfold comp_text. replace ((60 :: t ++ [62]) ++ q_text q) with ((60 :: t) ++ 62 :: q_text q) by (cbn [app]; rewrite <- app_assoc; reflexivity). apply G; [apply W|discriminate].
  - change (91 :: set_text neg ts ++ 93 :: q_text q) with ((91 :: set_text neg ts) ++ 93 :: q_text q). apply G; [apply W|discriminate].
  - change (40 :: flat_map i_text l ++ 41 :: q_text q) with ((40 :: flat_map i_text l) ++ 41 :: q_text q). apply G; [|discriminate]. apply wf_group in W. apply W.
Qed.
Lemma last_e : forall e, wf e -> last (e_text e) 0 <> 36.
Proof.
  intros e W. destruct e as [|i e] using rev_ind; [discriminate|]. rewrite e_text_app. change (e_text [i]) with (i_text i ++ []). rewrite app_nil_r. apply Forall_app in W. destruct W as [_ W]. inversion W; subst. rewrite last_app; [apply last_item; assumption|]. destruct i; discriminate.
Qed.
Lemma top_ok : forall start e stop, wf e -> (start = true \/ e <> []) -> exists x, top_new (top_text start e stop) = Ok x /\ shape start e stop x /\ t_prefs x = refs_new /\ t_srefs x = refs_new.
Proof.
  intros start e stop W H. unfold RegexModel.top_new.
  set (t := top_text start e stop). assert (Nt : t <> []).
  { unfold t, top_text. destruct start; [discriminate|]. destruct H as [H|H]; [discriminate H|]. intros X. cbn [app] in X. apply app_eq_nil in X. apply (e_text_nonempty e H). apply X. }
  assert (Et : (if last t 0 =? 36 then removelast t else t ++ ANY) = (if start then [94] else []) ++ e_text (e ++ tail stop)).
  { unfold t, top_text. destruct stop; rewrite tail_text.
    - rewrite app_assoc, last_last, removelast_last. reflexivity.
    - rewrite app_nil_r. replace (last ((if start then [94] else []) ++ e_text e) 0 =? 36) with false; [rewrite app_assoc; reflexivity|]. symmetry. apply Z.eqb_neq. destruct (e_text e) as [|c z] eqn:Ee; [rewrite app_nil_r; destruct start; discriminate|]. rewrite last_app by discriminate. rewrite <- Ee. apply last_e. exact W. }
  destruct t as [|c0 t0]; [congruence|]. rewrite Et. assert (W' : wf (e ++ tail stop)) by (apply Forall_app; split; [exact W|apply wf_tail]). destruct start; cbn [app].
  - change (94 =? 94) with true. cbv iota. rewrite (compile_ok _ _ W'). cbn [rbind]. eexists. split; [reflexivity|]. split; [|split; reflexivity]. split; [reflexivity|]. cbn [fst snd t_pn]. split; [rewrite nrefs_app, nrefs_tail; lia|reflexivity].
  - assert (Ne : e ++ tail stop <> []) by (destruct H as [H|H]; [discriminate H|]; destruct e; [congruence|discriminate]). destruct (e_text (e ++ tail stop)) as [|c e'] eqn:Ee; [exfalso; exact (e_text_nonempty _ Ne Ee)|]. assert (Hc : c = 40 \/ c = 60 \/ c = 91) by (destruct (e_starts (e ++ tail stop)) as [X|(c' & t' & X & Hc)]; rewrite Ee in X; [discriminate X|]; injection X as -> _; exact Hc).
    replace (c =? 94) with false by lia. rewrite <- Ee. assert (W2 : wf (anyi :: e ++ tail stop)) by (constructor; [pose proof wf_any as Wa; inversion Wa; assumption|exact W']).
    change (ANY ++ e_text (e ++ tail stop)) with (e_text (anyi :: e ++ tail stop)). rewrite (compile_ok _ _ W2), (compile_ok _ _ W'). cbn [rbind]. eexists. split; [reflexivity|]. split; [|split; reflexivity]. split; [reflexivity|]. cbn [fst snd t_pn t_sn t_secondary]. split; [rewrite nrefs_app, nrefs_tail; lia|]. split; [reflexivity|].
    change (anyi :: e ++ tail stop) with ([anyi] ++ e ++ tail stop). rewrite !nrefs_app, nrefs_any, nrefs_tail. lia.
Qed.
Lemma top_inv : forall t x, top_new t = Ok x -> exists start e stop, wf e /\ (start = true \/ e <> []) /\ t = top_text start e stop.
Proof.
  intros t x H. unfold RegexModel.top_new in H. destruct t as [|c0 t0]; [discriminate H|]. set (t := c0 :: t0) in *. assert (Nt : t <> []) by discriminate. 
  assert (St : exists stop body, t = body ++ (if (stop : bool) then [36] else []) /\ (if last t 0 =? 36 then removelast t else t ++ ANY) = (if stop then body else body ++ ANY) /\ (stop = false -> body <> [])).
  { destruct (Z.eqb_spec (last t 0) 36) as [E|E].
    - exists true, (removelast t). split; [rewrite <- E; apply app_removelast_last; exact Nt|]. split; [reflexivity|discriminate].
    - exists false, t. rewrite app_nil_r. auto. }
  destruct St as (stop & body & Et & Eb & Nb). rewrite Eb in H. rewrite Et. clear Et Eb Nt.
  destruct body as [|c b].
  - destruct stop; [discriminate H|]. exfalso. apply Nb; reflexivity.
  - assert (Ec : (if stop then c :: b else (c :: b) ++ ANY) = c :: (if stop then b else b ++ ANY)) by (destruct stop; reflexivity). rewrite Ec in H. destruct (Z.eqb_spec c 94) as [->|Nc].
    + assert (Hb : exists r, compile re_groups (if stop then b else b ++ ANY) = Ok r) by (destruct (compile re_groups _) as [r|]; [eauto|discriminate H]). destruct Hb as [r Hb]. assert (Hw : exists e, wf e /\ b = e_text e) by (destruct stop; [destruct (compile_inv _ _ _ Hb) as (e & W & -> & _); eauto|eapply compile_any; exact Hb]).
      destruct Hw as (e & W & ->). exists true, e, stop. split; [exact W|]. split; [auto|]. reflexivity.
    + rewrite <- Ec in H. assert (Hb : exists r, compile re_groups (if stop then c :: b else (c :: b) ++ ANY) = Ok r) by (destruct (compile re_groups (ANY ++ _)); [|discriminate H]; cbn [rbind] in H; destruct (compile re_groups _) as [r|]; [eauto|discriminate H]). destruct Hb as [r Hb]. assert (Hw : exists e, wf e /\ c :: b = e_text e) by (destruct stop; [destruct (compile_inv _ _ _ Hb) as (e & W & E & _); eauto|eapply compile_any; exact Hb]).
      destruct Hw as (e & W & E). exists false, e, stop. split; [exact W|]. split; [right; intros ->; discriminate E|]. unfold top_text. rewrite <- E. reflexivity.
Qed.
Lemma top_err : forall t e, top_new t = Err e -> (e = IndexError /\ (t = [] \/ t = [36])) \/ (t <> [] /\ t <> [36] /\ (e = OtherError \/ exists x, re_groups x = Err e)).
Proof.
  intros t e H. unfold RegexModel.top_new in H. destruct t as [|c0 t0]; [injection H as <-; auto|]. set (t := c0 :: t0) in *.
  destruct (Z.eqb_spec (last t 0) 36) as [E|E].
  - destruct (removelast t) as [|c b] eqn:Er.
    + injection H as <-. left. split; [reflexivity|]. right. rewrite (app_removelast_last 0 (l := t)) by discriminate. rewrite Er, E. reflexivity.
    + right. split; [discriminate|]. split; [intros X; rewrite X in Er; discriminate Er|]. destruct (c =? 94).
      * destruct (compile re_groups b) as [r|e'] eqn:C; [discriminate H|]. injection H as <-. eapply compile_err. exact C.
      * destruct (compile re_groups (ANY ++ c :: b)) as [r|e'] eqn:C; cbn [rbind] in H; [|injection H as <-; eapply compile_err; exact C]. destruct (compile re_groups (c :: b)) as [r2|e'] eqn:C2; [discriminate H|]. injection H as <-. eapply compile_err. exact C2.
  - right. split; [discriminate|]. split; [intros X; rewrite X in E; apply E; reflexivity|]. destruct (t ++ ANY) as [|c b] eqn:Er; [discriminate Er|]. destruct (c =? 94).
    + destruct (compile re_groups b) as [r|e'] eqn:C; [discriminate H|]. injection H as <-. eapply compile_err. exact C.
    + destruct (compile re_groups (ANY ++ c :: b)) as [r|e'] eqn:C; cbn [rbind] in H; [|injection H as <-; eapply compile_err; exact C]. destruct (compile re_groups (c :: b)) as [r2|e'] eqn:C2; [discriminate H|]. injection H as <-. eapply compile_err. exact C2.
Qed.
Lemma shape_match : forall start e stop x n, shape start e stop x -> shape start e stop (fst (top_match x n)).
Proof.
  intros start e stop x n (A & B & C). unfold RegexModel.top_match. destruct (l_match re_search (t_primary x) n (t_prefs x)) as [s r]. destruct r.
  - split; [exact A|]. split; [exact B|exact C].
  - destruct (t_secondary x) as [l|] eqn:El.
    + destruct (l_match re_search l n (t_srefs x)) as [s2 r2]. destruct r2; cbn [fst]; (split; [exact A|]; split; [exact B|]; exact C).
    + cbn [fst]. split; [exact A|]. split; [exact B|exact C].
Qed.
Lemma shape_run : forall start e stop ns x, shape start e stop x -> shape start e stop (fold_left (fun x n => fst (top_match x n)) ns x).
Proof. intros start e stop. induction ns as [|n ns IH]; intros x H; cbn [fold_left]; [exact H|]. apply IH, shape_match, H. Qed.

(** ** Matching *)
Lemma ref_result_ok : forall x s n i, (if t_secondaryUsed x then t_sn x else t_pn x) = n -> (if t_secondaryUsed x then t_srefs x else t_prefs x) = s ->
  ref_result x i = if i =? 0 then Ok (t_result x) else if i <=? Z.of_nat n then Ok (s (Z.to_nat (i - 1))) else Err OtherError.
Proof. intros x s n i <- <-. reflexivity. Qed.
Lemma match_sound : forall start e stop x n, wf e -> shape start e stop x -> snd (top_match x n) = true ->
  exists u v w g, n = u ++ v ++ w /\ (start = true -> u = []) /\ (stop = true -> w = []) /\ caps_of 0 e v g /\
    let y := fst (top_match x n) in
    ref_result y 0 = Ok n /\
    (forall j c, In (j, c) g -> ref_result y (Z.of_nat j + 1) = Ok c) /\
    (forall i, 0 < i <= Z.of_nat (nrefs e) -> exists c, ref_result y i = Ok c) /\
    (forall i, Z.of_nat (nrefs e) < i -> ref_result y i = Err OtherError).
Proof.
  intros start e stop x n W (A & B & C) M. assert (W' : wf (e ++ tail stop)) by (apply Forall_app; split; [exact W|apply wf_tail]).
  assert (F : forall y s g, (if t_secondaryUsed y then t_sn y else t_pn y) = nrefs e -> (if t_secondaryUsed y then t_srefs y else t_prefs y) = s -> t_result y = n -> agree s g -> inside 0 (nrefs e) g ->
    ref_result y 0 = Ok n /\ (forall j c, In (j, c) g -> ref_result y (Z.of_nat j + 1) = Ok c) /\ (forall i, 0 < i <= Z.of_nat (nrefs e) -> exists c, ref_result y i = Ok c) /\ (forall i, Z.of_nat (nrefs e) < i -> ref_result y i = Err OtherError)).
  { intros y s g Hn Hs Hr Ag Ig. split; [|split; [|split]].
    - rewrite (ref_result_ok y s _ 0 Hn Hs), Hr. reflexivity.
    - intros j c I. specialize (Ig _ _ I). rewrite (ref_result_ok y s _ _ Hn Hs). replace (Z.of_nat j + 1 =? 0) with false by lia. replace (Z.of_nat j + 1 <=? Z.of_nat (nrefs e)) with true by lia. f_equal. replace (Z.to_nat (Z.of_nat j + 1 - 1)) with j by lia. apply Ag. exact I.
    - intros i Hi. rewrite (ref_result_ok y s _ _ Hn Hs). replace (i =? 0) with false by lia. replace (i <=? Z.of_nat (nrefs e)) with true by lia. eauto.
    - intros i Hi. rewrite (ref_result_ok y s _ _ Hn Hs). replace (i =? 0) with false by lia. replace (i <=? Z.of_nat (nrefs e)) with false by lia. reflexivity. }
  revert M. unfold RegexModel.top_match. rewrite A. destruct (l_match re_search (tr 0 (e ++ tail stop)) n (t_prefs x)) as [s r] eqn:E1. destruct (expr_sound _ _ _ _ _ _ _ _ W' E1) as [_ H1]. destruct r.
  - intros _. destruct (H1 eq_refl) as (g & Cg & Ag & Ig). apply caps_app in Cg. destruct Cg as (v & w & g1 & g2 & -> & -> & C1 & C2). apply caps_tail in C2. destruct C2 as [-> Hw]. rewrite app_nil_r in *. cbn [fst snd].
    exists [], v, w, g1. split; [reflexivity|]. split; [auto|]. split; [exact Hw|]. split; [exact C1|]. apply (F _ s); try reflexivity; [exact B|exact Ag|]. rewrite nrefs_app, nrefs_tail, Nat.add_0_r in Ig. exact Ig.
  - destruct start; [rewrite C; discriminate|]. destruct C as [C Cn]. rewrite C. destruct (l_match re_search (tr 0 (anyi :: e ++ tail stop)) n (t_srefs x)) as [s2 r2] eqn:E2. assert (W2 : wf (anyi :: e ++ tail stop)) by (constructor; [pose proof wf_any as Wa; inversion Wa; assumption|exact W']).
    destruct (expr_sound _ _ _ _ _ _ _ _ W2 E2) as [_ H2]. destruct r2; [|discriminate]. intros _. destruct (H2 eq_refl) as (g & Cg & Ag & Ig). change (anyi :: e ++ tail stop) with ([anyi] ++ e ++ tail stop) in Cg, Ig. apply caps_app in Cg. destruct Cg as (u & z & g1 & g2 & -> & -> & C1 & C2). apply caps_any in C1. subst g1. rewrite nrefs_any in C2. apply caps_app in C2. destruct C2 as (v & w & g1 & g3 & -> & -> & C2 & C3). apply caps_tail in C3. destruct C3 as [-> Hw]. cbn [app Nat.add fst snd] in *. rewrite app_nil_r in *.
    exists u, v, w, g1. split; [reflexivity|]. split; [intros X; discriminate X|]. split; [exact Hw|]. split; [exact C2|]. apply (F _ s2); try reflexivity; [exact Cn|exact Ag|]. replace (nrefs (anyi :: e ++ tail stop)) with (nrefs e) in Ig; [exact Ig|]. change (anyi :: e ++ tail stop) with ([anyi] ++ e ++ tail stop). rewrite !nrefs_app, nrefs_any, nrefs_tail. lia.
Qed.
Lemma match_complete : forall start e stop x n, wf e -> strict e -> zlen n <= 32767 -> shape start e stop x -> matches start e stop n -> snd (top_match x n) = true.
Proof.
  intros start e stop x n W Ss L (A & B & C) (u & v & w & En & Hv & Hu & Hw). assert (W' : wf (e ++ tail stop)) by (apply Forall_app; split; [exact W|apply wf_tail]). assert (S' : strict (e ++ tail stop)) by (apply Forall_app; split; [exact Ss|]; destruct stop; [constructor|exact strict_any]).
  unfold RegexModel.top_match. rewrite A. destruct (l_match re_search (tr 0 (e ++ tail stop)) n (t_prefs x)) as [s r] eqn:E1. destruct r; [reflexivity|].
  assert (Lt : lang (e ++ tail stop) (v ++ w)) by (apply lang_app; exists v, w; split; [reflexivity|]; split; [exact Hv|]; apply lang_tail; exact Hw).
  destruct start.
  - exfalso. rewrite (Hu eq_refl) in En. cbn [app] in En. subst n. pose proof (expr_complete re_groups re_search _ 0 _ (t_prefs x) W' S' L Lt) as X. rewrite E1 in X. discriminate X.
  - destruct C as [C _]. rewrite C. assert (W2 : wf (anyi :: e ++ tail stop)) by (constructor; [pose proof wf_any as Wa; inversion Wa; assumption|exact W']). assert (S2 : strict (anyi :: e ++ tail stop)) by (constructor; [exact I|exact S']).
    assert (L2 : lang (anyi :: e ++ tail stop) n) by (change (anyi :: e ++ tail stop) with ([anyi] ++ e ++ tail stop); apply lang_app; exists u, (v ++ w); split; [exact En|]; split; [apply lang_any|exact Lt]).
    pose proof (expr_complete re_groups re_search _ 0 _ (t_srefs x) W2 S2 L L2) as X. destruct (l_match re_search (tr 0 (anyi :: e ++ tail stop)) n (t_srefs x)) as [s2 r2]. cbn [snd] in X. subst r2. reflexivity.
Qed.
End P.
