(** * Proofs about client.conf and locators *)
From Verif Require Import Base BaseLemmas NameModel UriModel UriProofs DictModel DictProofs WireModel HierModel PibModel FrontModel BagModel ChainModel SqlModel SqlSpec SqlProps LocModel LocSpec.
Notation str := (list Z).

Lemma zle : forall a b : str, zlist_eqb a b = true <-> a = b. Proof. intros. apply zlist_eqb_eq. Qed.
Lemma zle_refl : forall a : str, zlist_eqb a a = true. Proof. intros. apply zle. reflexivity. Qed.
Lemma zle_neq : forall a b : str, a <> b -> zlist_eqb a b = false.
Proof. intros a b N. destruct (zlist_eqb a b) eqn:E; [|reflexivity]. apply zle in E. contradiction. Qed.
Lemma zle_cases : forall a b : str, (a = b /\ zlist_eqb a b = true) \/ (a <> b /\ zlist_eqb a b = false).
Proof. intros a b. destruct (zlist_eqb a b) eqn:E; [left|right]; split; trivial. { apply zle, E. } intros H. apply zle in H. congruence. Qed.

(** ** strip *)
Lemma lstrip_idem : forall s, lstrip (lstrip s) = lstrip s.
Proof. induction s as [|c s IH]; [reflexivity|]. cbn [lstrip]. destruct (is_space c) eqn:E; [exact IH|]. cbn [lstrip]. rewrite E. reflexivity. Qed.
Lemma lstrip_app : forall c a b, is_space c = false -> lstrip (a ++ c :: b) = lstrip a ++ c :: b.
Proof. intros c a b H. induction a as [|x a IH]; cbn [app lstrip]; [rewrite H; reflexivity|]. destruct (is_space x); [exact IH|reflexivity]. Qed.
Lemma lstrip_suffix : forall s, exists w, s = w ++ lstrip s.
Proof. induction s as [|c s [w IH]]; [exists []; reflexivity|]. cbn [lstrip]. destruct (is_space c); [exists (c :: w); cbn; congruence|exists []; reflexivity]. Qed.
Lemma lstrip_head : forall s c r, lstrip s = c :: r -> is_space c = false.
Proof. induction s as [|x s IH]; cbn [lstrip]; intros c r H; [discriminate H|]. destruct (is_space x) eqn:E; [eauto|]. congruence. Qed.
Definition rstrip (s : str) : str := rev (lstrip (rev s)).
Lemma strip_r : forall s, strip s = rstrip (lstrip s). Proof. reflexivity. Qed.
Lemma rstrip_app : forall c a b, is_space c = false -> rstrip (a ++ c :: b) = a ++ c :: rstrip b.
Proof. intros c a b H. unfold rstrip. rewrite rev_app_distr. cbn [rev]. rewrite <- app_assoc. cbn [app]. rewrite lstrip_app by exact H. rewrite rev_app_distr. cbn [rev]. rewrite rev_involutive, <- app_assoc. reflexivity. Qed.
Lemma rstrip_prefix : forall s, exists w, s = rstrip s ++ w.
Proof. intros s. unfold rstrip. destruct (lstrip_suffix (rev s)) as [w E]. exists (rev w). rewrite <- rev_app_distr, <- E, rev_involutive. reflexivity. Qed.
Lemma rstrip_cons : forall c s, is_space c = false -> rstrip (c :: s) = c :: rstrip s.
Proof. intros. apply (rstrip_app c [] s H). Qed.
Lemma rstrip_idem : forall s, rstrip (rstrip s) = rstrip s.
Proof. intros. unfold rstrip. rewrite rev_involutive, lstrip_idem. reflexivity. Qed.
Lemma strip_lstrip : forall s, strip (lstrip s) = strip s. Proof. intros. unfold strip. rewrite lstrip_idem. reflexivity. Qed.
Lemma strip_head : forall s, lstrip s = [] /\ strip s = [] \/ exists c r, lstrip s = c :: r /\ strip s = c :: rstrip r.
Proof. intros s. rewrite strip_r. destruct (lstrip s) as [|c r] eqn:E; [left; split; reflexivity|]. right. exists c, r. split; [reflexivity|]. apply rstrip_cons. eapply lstrip_head. exact E. Qed.
Lemma strip_rstrip : forall s, strip (rstrip s) = strip s.
Proof.
  intros s. destruct (lstrip_suffix s) as [w E]. destruct (lstrip s) as [|c r] eqn:L.
  - (* all spaces *) rewrite !strip_r, L. cbn. assert (A : rstrip s = [] ).
    { assert (G : Forall (fun x => is_space x = true) s). { clear E w. induction s as [|x s IH]; [constructor|]. cbn [lstrip] in L. destruct (is_space x) eqn:Ex; [|discriminate L]. constructor; auto. }
      unfold rstrip. assert (G' : Forall (fun x => is_space x = true) (rev s)) by (apply Forall_rev; exact G). clear -G'. induction G' as [|x l Hx Hl IH]; [reflexivity|]. cbn [lstrip]. rewrite Hx. exact IH. }
    rewrite A. reflexivity.
  - assert (Hc := lstrip_head _ _ _ L). rewrite E. rewrite rstrip_app by exact Hc.
    rewrite !strip_r, !lstrip_app by exact Hc. rewrite !rstrip_app by exact Hc. rewrite rstrip_idem. reflexivity.
Qed.
Lemma eq_nospace : is_space 61 = false. Proof. reflexivity. Qed.
(** "a=b" *)
Lemma strip_assign : forall a b, strip (a ++ 61 :: b) = lstrip a ++ 61 :: rstrip b.
Proof. intros a b. rewrite strip_r, lstrip_app by reflexivity. apply rstrip_app. reflexivity. Qed.
Lemma lstrip_in : forall s x, In x (lstrip s) -> In x s.
Proof. intros s x I. destruct (lstrip_suffix s) as [w E]. rewrite E. apply in_or_app. auto. Qed.
Lemma find_first : forall c s i, find_idx c s = Some i -> s = firstn i s ++ c :: skipn (i + 1) s /\ ~ In c (firstn i s).
Proof.
  intros c s. induction s as [|x s IH]; intros i H; [discriminate H|]. cbn [find_idx] in H. destruct (x =? c) eqn:E.
  - injection H as <-. apply Z.eqb_eq in E. subst x. cbn. auto.
  - destruct (find_idx c s) as [j|] eqn:F; [|discriminate H]. injection H as <-. destruct (IH j eq_refl) as [A B]. cbn [firstn app skipn Nat.add]. split; [congruence|]. intros [K|K]; [lia|auto].
Qed.
Lemma find_no : forall c s, find_idx c s = None -> ~ In c s.
Proof. intros c s. induction s as [|x s IH]; intros H; [auto|]. cbn [find_idx] in H. destruct (x =? c) eqn:E; [discriminate H|]. destruct (find_idx c s) eqn:F; [discriminate H|]. intros [K|K]; [lia|]. exact (IH eq_refl K). Qed.
Lemma find_is : forall c a b, ~ In c a -> find_idx c (a ++ c :: b) = Some (length a).
Proof. intros c a b N. apply find_idx_app. apply Forall_forall. intros x I E. subst. contradiction. Qed.
Lemma split_at : forall (a b : str) c, firstn (length a) (a ++ c :: b) = a /\ skipn (length a + 1) (a ++ c :: b) = b.
Proof. intros a b c. induction a as [|x a [IH1 IH2]]; [split; reflexivity|]. cbn [length firstn app Nat.add skipn]. rewrite IH1. auto. Qed.

Lemma dget_set : forall (c : dict str str) k v k', dget zlist_eqb (dset zlist_eqb c k v) k' = if zlist_eqb k k' then Some v else dget zlist_eqb c k'.
Proof.
  intros c k v k'. induction c as [|[k1 v1] c IH]; [reflexivity|]. cbn [dset]. destruct (zle_cases k1 k) as [[E B]|[N B]]; rewrite B; cbn [dget].
  - subst. destruct (zlist_eqb k k'); reflexivity.
  - rewrite IH. destruct (zle_cases k1 k') as [[E2 B2]|[N2 B2]]; rewrite B2; [|reflexivity]. subst. rewrite zle_neq by congruence. reflexivity.
Qed.
(** one line *)
Lemma line_assign : forall c line key value, assigns line key value -> conf_line c line = dset zlist_eqb c key value.
Proof.
  intros c line key value (a & b & -> & N & Ka & Vb & H). unfold conf_line. rewrite strip_assign. rewrite lstrip_app in H by reflexivity.
  destruct (lstrip a ++ 61 :: rstrip b) as [|x r] eqn:E. { destruct (lstrip a); discriminate E. }
  assert (X : x =? 59 = false). { apply Z.eqb_neq. intros ->. apply H. destruct (lstrip a) as [|y s]; cbn in *; congruence. }
  rewrite X. rewrite <- E. rewrite find_is by (intros I; apply N; apply lstrip_in; exact I).
  destruct (split_at (lstrip a) (rstrip b) 61) as [-> ->]. rewrite strip_lstrip, strip_rstrip, Ka, Vb. reflexivity.
Qed.
Lemma line_other : forall c line, (forall k v, ~ assigns line k v) -> conf_line c line = c.
Proof.
  intros c line H. unfold conf_line. destruct (strip_head line) as [[_ E]|(x & r & L & E)]; rewrite E; [reflexivity|].
  destruct (x =? 59) eqn:X; [reflexivity|]. destruct (find_idx 61 (x :: rstrip r)) as [i|] eqn:F; [|reflexivity]. exfalso.
  destruct (find_idx 61 line) as [j|] eqn:G.
  - destruct (find_first _ _ _ G) as [S1 S2]. apply (H (strip (firstn j line)) (strip (skipn (j + 1) line))). exists (firstn j line), (skipn (j + 1) line). split; [exact S1|]. split; [exact S2|]. split; [reflexivity|]. split; [reflexivity|]. rewrite L. cbn. intros Q. injection Q as ->. discriminate X.
  - apply (find_no _ _ G). destruct (find_first _ _ _ F) as [S1 _]. assert (I : In 61 (x :: rstrip r)) by (rewrite S1; apply in_or_app; right; left; reflexivity).
    apply lstrip_in. rewrite L. destruct I as [I|I]; [left; exact I|]. right. destruct (rstrip_prefix r) as [w Ew]. rewrite Ew. apply in_or_app. auto.
Qed.
Lemma assigns_dec : forall line, (exists k v, assigns line k v) \/ (forall k v, ~ assigns line k v).
Proof.
  intros line. destruct (find_idx 61 line) as [j|] eqn:G.
  - destruct (find_first _ _ _ G) as [S1 S2]. destruct (lstrip line) as [|x r] eqn:L.
    + left. exists (strip (firstn j line)), (strip (skipn (j + 1) line)). exists (firstn j line), (skipn (j + 1) line). rewrite L. cbn. do 4 (split; [trivial|]). discriminate.
    + destruct (Z.eq_dec x 59) as [->|N].
      * right. intros k v (a & b & _ & _ & _ & _ & Q). rewrite L in Q. apply Q. reflexivity.
      * left. exists (strip (firstn j line)), (strip (skipn (j + 1) line)). exists (firstn j line), (skipn (j + 1) line). rewrite L. cbn. do 4 (split; [trivial|]). congruence.
  - right. intros k v (a & b & E & _). apply (find_no _ _ G). rewrite E. apply in_or_app. right. left. reflexivity.
Qed.
Lemma assigns_fun : forall line k v k' v', assigns line k v -> assigns line k' v' -> k' = k /\ v' = v.
Proof.
  intros line k v k' v' (a & b & E & N & Ka & Vb & _) (a' & b' & E' & N' & Ka' & Vb' & _). subst line.
  assert (H : find_idx 61 (a ++ 61 :: b) = Some (length a')). { rewrite E'. apply find_is, N'. } rewrite find_is in H by exact N. injection H as H.
  assert (La : a = a'). { destruct (split_at a b 61) as [P1 _]. destruct (split_at a' b' 61) as [P2 _]. rewrite <- P1, H, E'. exact P2. }
  subst a'. apply app_inv_head in E'. injection E' as ->. subst. auto.
Qed.
Lemma conf_snoc : forall lines line, conf_parse (lines ++ [line]) = conf_line (conf_parse lines) line.
Proof. intros. unfold conf_parse. rewrite fold_left_app. reflexivity. Qed.
Lemma conf_says : forall lines key, (exists v, says lines key v /\ dget zlist_eqb (conf_parse lines) key = Some v) \/ (silent lines key /\ dget zlist_eqb (conf_parse lines) key = None).
Proof.
  intros lines key. induction lines as [|line lines IH] using rev_ind; [right; split; [intros l v []|reflexivity]|].
  rewrite conf_snoc. destruct (assigns_dec line) as [(k & v & A)|A].
  - rewrite (line_assign _ _ _ _ A), dget_set. destruct (zle_cases k key) as [[-> B]|[N B]]; rewrite B.
    + left. exists v. split; [|reflexivity]. exists lines, line, []. split; [reflexivity|]. split; [exact A|]. intros l v' [].
    + assert (NA : forall v', ~ assigns line key v'). { intros v' A'. destruct (assigns_fun _ _ _ _ _ A A') as [Q _]. congruence. }
      destruct IH as [(v1 & (l1 & l & l2 & E & A1 & Z1) & G)|[Sl G]].
      * left. exists v1. split; [|exact G]. exists l1, l, (l2 ++ [line]). split; [rewrite E, <- app_assoc; reflexivity|]. split; [exact A1|]. intros x v' I. apply in_app_or in I. destruct I as [I|[<-|[]]]; [apply Z1, I|apply NA].
      * right. split; [|exact G]. intros x v' I. apply in_app_or in I. destruct I as [I|[<-|[]]]; [apply Sl, I|apply NA].
  - rewrite (line_other _ _ A). destruct IH as [(v1 & (l1 & l & l2 & E & A1 & Z1) & G)|[Sl G]].
    + left. exists v1. split; [|exact G]. exists l1, l, (l2 ++ [line]). split; [rewrite E, <- app_assoc; reflexivity|]. split; [exact A1|]. intros x v' I. apply in_app_or in I. destruct I as [I|[<-|[]]]; [apply Z1, I|apply A].
    + right. split; [|exact G]. intros x v' I. apply in_app_or in I. destruct I as [I|[<-|[]]]; [apply Sl, I|apply A].
Qed.
Lemma says_fun : forall lines key v v', says lines key v -> says lines key v' -> v' = v.
Proof.
  intros lines key v v'. induction lines as [|line lines IH] using rev_ind; intros (l1 & l & l2 & E & A & Z) (m1 & m & m2 & E' & A' & Z').
  { destruct l1; discriminate E. }
  destruct l2 as [|y l2 _] using rev_ind; destruct m2 as [|z m2 _] using rev_ind.
  - apply app_inj_tail in E. apply app_inj_tail in E'. destruct E as [_ ->], E' as [_ ->]. eapply assigns_fun; eassumption.
  - apply app_inj_tail in E. destruct E as [_ ->]. change (m1 ++ m :: m2 ++ [z]) with (m1 ++ (m :: m2) ++ [z]) in E'. rewrite app_assoc in E'. apply app_inj_tail in E'. destruct E' as [_ <-]. exfalso. apply (Z' l v); [apply in_or_app; right; left; reflexivity|exact A].
  - apply app_inj_tail in E'. destruct E' as [_ ->]. change (l1 ++ l :: l2 ++ [y]) with (l1 ++ (l :: l2) ++ [y]) in E. rewrite app_assoc in E. apply app_inj_tail in E. destruct E as [_ <-]. exfalso. apply (Z m v'); [apply in_or_app; right; left; reflexivity|exact A'].
  - change (m1 ++ m :: m2 ++ [z]) with (m1 ++ (m :: m2) ++ [z]) in E'. rewrite app_assoc in E'. apply app_inj_tail in E'. destruct E' as [E' _]. change (l1 ++ l :: l2 ++ [y]) with (l1 ++ (l :: l2) ++ [y]) in E. rewrite app_assoc in E. apply app_inj_tail in E. destruct E as [E _].
    apply IH; [exists l1, l, l2|exists m1, m, m2]; (split; [assumption|]; split; [assumption|]); intros x vx I; [apply Z|apply Z']; apply in_or_app; auto.
Qed.
