(** * Proofs about the INFO parser *)
From Verif Require Import Base BaseLemmas BlobModel InfoModel InfoSpec.
From Coq Require Import Arith.
Local Open Scope res_scope.

Lemma space_iff : forall c, is_space c = true <-> white c.
Proof. intros c. unfold is_space, white. rewrite !orb_true_iff, !andb_true_iff. lia. Qed.
Lemma break_iff : forall c, is_break c = true <-> breaks c.
Proof. intros c. unfold is_break, breaks. rewrite existsb_exists. split; [intros (x & I & E); apply Z.eqb_eq in E; subst; exact I|intros I; exists c; split; [exact I|apply Z.eqb_refl]]. Qed.
Lemma break_white : forall c, breaks c -> white c.
Proof. intros c H. unfold breaks in H. cbn in H. unfold white. lia. Qed.
Lemma ws_white : forall c, is_ws c = true -> white c.
Proof. intros c H. unfold is_ws in H. rewrite !orb_true_iff in H. unfold white. lia. Qed.
Lemma find_none : forall c s, ~ In c s -> find_char c s = None.
Proof. intros c s. induction s as [|d s IH]; intros H; [reflexivity|]. cbn [find_char]. destruct (Z.eqb_spec d c) as [->|N]; [exfalso; apply H; left; reflexivity|]. rewrite IH; [reflexivity|]. intros I. apply H. right. exact I. Qed.
Lemma find_first : forall c a b, ~ In c a -> find_char c (a ++ c :: b) = Some (a, c :: b).
Proof. intros c a b. induction a as [|d a IH]; intros H; cbn [app find_char]; [rewrite Z.eqb_refl; reflexivity|]. destruct (Z.eqb_spec d c) as [->|N]; [exfalso; apply H; left; reflexivity|]. rewrite IH; [reflexivity|]. intros I. apply H. right. exact I. Qed.

(** ** strip *)
Definition hard (s : str) : Prop := match s with [] => True | c :: _ => is_space c = false end.
Lemma lstrip_blanks : forall b s, blanks b -> lstrip (b ++ s) = lstrip s.
Proof. intros b s H. induction H as [|c b Hc _ IH]; [reflexivity|]. cbn [app lstrip]. replace (is_space c) with true; [exact IH|]. symmetry. apply space_iff. unfold white. lia. Qed.
Lemma lstrip_hard : forall s, hard s -> lstrip s = s.
Proof. intros [|c s] H; [reflexivity|]. cbn [hard] in H. cbn [lstrip]. rewrite H. reflexivity. Qed.
Lemma blanks_rev : forall b, blanks b -> blanks (rev b).
Proof. intros b H. apply Forall_rev. exact H. Qed.
Lemma strip_padded : forall b t b', blanks b -> blanks b' -> hard t -> hard (rev t) -> strip (b ++ t ++ b') = t.
Proof.
  intros b t b' B B' H H'. unfold strip. rewrite lstrip_blanks by exact B. destruct t as [|c t].
  - cbn [app]. rewrite <- (app_nil_r b'), lstrip_blanks by exact B'. reflexivity.
  - rewrite (lstrip_hard ((c :: t) ++ b')) by exact H. rewrite rev_app_distr, lstrip_blanks by (apply blanks_rev; exact B'). rewrite lstrip_hard by exact H'. apply rev_involutive.
Qed.
Lemma lstrip_app : forall s c r, is_space c = false -> exists s', lstrip (s ++ c :: r) = s' ++ c :: r.
Proof. intros s c r H. induction s as [|d s IH]; cbn [app lstrip]; [rewrite H; exists []; reflexivity|]. destruct (is_space d); [exact IH|]. exists (d :: s). reflexivity. Qed.
Lemma strip_comment : forall b t x, blanks b -> hard t -> exists x', strip (b ++ t ++ 59 :: x) = t ++ 59 :: x'.
Proof.
  intros b t x B H. unfold strip. rewrite lstrip_blanks by exact B. rewrite (lstrip_hard (t ++ 59 :: x)) by (destruct t; [reflexivity|exact H]). rewrite rev_app_distr. cbn [rev]. rewrite <- app_assoc. cbn [app]. destruct (lstrip_app (rev x) 59 (rev t) eq_refl) as (s' & ->). rewrite rev_app_distr. cbn [rev]. rewrite rev_involutive, <- app_assoc. exists (rev s'). reflexivity.
Qed.
Definition cut (s : str) : str := match find_char 59 s with Some (a, _) => strip a | None => s end.
Lemma blanks_59 : forall b, blanks b -> ~ In 59 b.
Proof. intros b H I. unfold blanks in H. rewrite Forall_forall in H. specialize (H _ I). lia. Qed.
Lemma cut_padded : forall t l, padded t l -> ~ In 59 t -> hard t -> hard (rev t) -> cut (strip l) = t.
Proof.
  intros t l (b & b' & c & -> & B & B' & C) N H H'. destruct C as [->|(x & -> & _)].
  - rewrite app_nil_r. rewrite strip_padded by assumption. unfold cut. rewrite find_none by exact N. reflexivity.
  - destruct t as [|d t].
    + cbn [app]. rewrite app_assoc. assert (BB : blanks (b ++ b')) by (apply Forall_app; split; assumption). destruct (strip_comment (b ++ b') [] x BB I) as (x' & E). cbn [app] in E. rewrite E. reflexivity.
    + replace (b ++ (d :: t) ++ b' ++ 59 :: x) with (b ++ ((d :: t) ++ b') ++ 59 :: x) by (rewrite <- !app_assoc; reflexivity). destruct (strip_comment b ((d :: t) ++ b') x B ltac:(exact H)) as (x' & E). rewrite E. unfold cut. rewrite find_first by (intros I; apply in_app_or in I; destruct I as [I|I]; [exact (N I)|exact (blanks_59 _ B' I)]).
      rewrite <- (app_nil_l ((d :: t) ++ b')). apply strip_padded; [constructor|exact B'|exact H|exact H'].
Qed.
Lemma cut_skipped : forall l, skipped l -> cut (strip l) = [].
Proof. intros l (b & c & -> & B & C). apply cut_padded; try exact I; [|intros []]. exists b, [], c. split; [reflexivity|]. split; [exact B|]. split; [constructor|exact C]. Qed.
Lemma parse_cut : forall inc n s c, ~ In 59 (cut s) -> parse_line inc n s c = parse_line inc n (cut s) c.
Proof.
  intros inc n s c N. assert (E : match find_char 59 (cut s) with Some (a, _) => strip a | None => cut s end = cut s) by (rewrite find_none by exact N; reflexivity). destruct n; cbn [parse_line]; rewrite E; reflexivity.
Qed.

(** ** Tokens *)
Lemma spells_59 : forall q t k, spells q t k -> ~ In 59 t.
Proof. intros q t k H. induction H; cbn [In]; [tauto|..]; intros Hi; repeat destruct Hi as [Hi|Hi]; try congruence; try tauto. Qed.
Lemma spells_break : forall q t k, spells q t k -> no_break t.
Proof. intros q t k H. induction H; repeat constructor; try assumption; intros X; cbn in X; lia. Qed.
Lemma spells_hard : forall t k, spells false t k -> hard t.
Proof. intros t k H. inversion H; subst; cbn [hard]; try reflexivity; try exact I. destruct (is_space c) eqn:E; [|reflexivity]. apply space_iff in E. tauto. Qed.
Lemma hard_last : forall t, hard (rev t) <-> (t = [] \/ is_space (last t 0) = false).
Proof. intros t. destruct t as [|c t] using rev_ind; [cbn; tauto|]. rewrite rev_app_distr, last_last. cbn. split; [auto|]. intros [E|E]; [destruct t; discriminate E|exact E]. Qed.
Lemma last_cons2 : forall (c d : Z) t, last (c :: d :: t) 0 = last (d :: t) 0.
Proof. reflexivity. Qed.
Lemma spells_last : forall q t k, spells q t k -> t = [] \/ is_space (last t 0) = false.
Proof.
  intros q t k H. induction H as [|q c t k H1 H2 H3 H4 H5 H IH|q c t k H3 H4 H5 H IH|q t k H IH]; [left; reflexivity|right..].
  - destruct IH as [->|IH]; [inversion H; subst; cbn; destruct (is_space c) eqn:E; [apply space_iff in E; tauto|reflexivity]|]. destruct t; [inversion H; subst; cbn; destruct (is_space c) eqn:E; [apply space_iff in E; tauto|reflexivity]|exact IH].
  - destruct t as [|d t]; [inversion H; subst; cbn; destruct (is_space c) eqn:E; [apply space_iff in E; tauto|reflexivity]|]. destruct IH as [IH|IH]; [discriminate IH|exact IH].
  - destruct t as [|d t]; [reflexivity|]. destruct IH as [IH|IH]; [discriminate IH|exact IH].
Qed.
Definition ends (s : str) : Prop := match s with [] => True | c :: _ => is_ws c = true end.
Lemma token_ok : forall q t k rest, spells q t k -> ends rest -> token (t ++ rest) q = (k, rest).
Proof.
  intros q t k rest H E. induction H as [|q c t k H1 H2 H3 H4 H5 H IH|q c t k H3 H4 H5 H IH|q t k H IH]; cbn [app token].
  - destruct rest as [|c r]; [reflexivity|]. cbn [ends] in E. cbn [token]. destruct (Z.eqb_spec c 92) as [->|_]; [discriminate E|]. destruct (Z.eqb_spec c 34) as [->|_]; [discriminate E|]. rewrite E. reflexivity.
  - apply Z.eqb_neq in H1, H2. rewrite H1, H2, IH. destruct q; [reflexivity|]. destruct (is_ws c) eqn:W; [apply ws_white in W; tauto|]. reflexivity.
  - rewrite IH. reflexivity.
  - exact IH.
Qed.
Lemma skip_hard : forall s, hard s -> skip_ws s = s.
Proof. intros [|c s] H; [reflexivity|]. cbn [skip_ws]. destruct (is_ws c) eqn:W; [|reflexivity]. apply ws_white, space_iff in W. cbn in H. congruence. Qed.
Lemma blank_ws : forall c, c = 32 \/ c = 9 -> is_ws c = true.
Proof. intros c [-> | ->]; reflexivity. Qed.
Lemma skip_blanks : forall b s, blanks b -> skip_ws (b ++ s) = skip_ws s.
Proof. intros b s H. induction H as [|c b Hc _ IH]; [reflexivity|]. cbn [app skip_ws]. rewrite (blank_ws c Hc). exact IH. Qed.
Lemma blanks_ends : forall b s, blanks b -> b <> [] -> ends (b ++ s).
Proof. intros [|c b] s H N; [congruence|]. inversion H; subst. cbn. apply blank_ws. assumption. Qed.
Lemma hard_app : forall s r, s <> [] -> hard s -> hard (s ++ r).
Proof. intros [|c s] r N H; [congruence|exact H]. Qed.
Lemma shlex_word : forall f b t k rest, blanks b -> word t k -> ends rest -> shlex (S f) (b ++ t ++ rest) = k :: shlex f rest.
Proof.
  intros f b t k rest B (N & H & _) E. cbn [shlex]. rewrite skip_blanks by exact B. rewrite skip_hard by (apply hard_app; [exact N|exact (spells_hard _ _ H)]). destruct (t ++ rest) as [|c s] eqn:Es; [destruct t; [congruence|discriminate Es]|]. rewrite <- Es. rewrite (token_ok false t k rest H E). reflexivity.
Qed.
Lemma shlex_end : forall f b, blanks b -> shlex f b = [].
Proof. intros [|f] b H; [reflexivity|]. cbn [shlex]. rewrite <- (app_nil_r b), skip_blanks by exact H. reflexivity. Qed.
Lemma word_len : forall t k, word t k -> (1 <= length t)%nat.
Proof. intros t k (N & _). destruct t; [congruence|cbn; lia]. Qed.
Definition strings (k : str) (v : option str) : list str := k :: match v with Some v => [v] | None => [] end.
(** an entry followed by blanks and by another word *)
Lemma ends_blanks : forall b r, blanks b -> ends r -> ends (b ++ r).
Proof. intros [|c b] r B E; [exact E|]. inversion B; subst. cbn. apply blank_ws. assumption. Qed.
Lemma shlex_rest : forall f k v t rest, entry k v t -> ends rest -> (length t <= f)%nat -> exists f', (f <= f' + 2)%nat /\ shlex f (t ++ rest) = strings k v ++ shlex f' rest.
Proof.
  intros f k v t rest (_ & H) E L. destruct v as [v|].
  - destruct H as (t1 & b & t2 & -> & W1 & B & Nb & W2). rewrite !app_length in L. pose proof (word_len _ _ W1). pose proof (word_len _ _ W2). destruct f as [|[|f]]; [lia|lia|]. exists f. split; [lia|]. rewrite <- !app_assoc. rewrite <- (app_nil_l (t1 ++ b ++ t2 ++ rest)). rewrite (shlex_word (S f) [] t1 k (b ++ t2 ++ rest) ltac:(constructor) W1) by (apply blanks_ends; assumption). rewrite (shlex_word f b t2 v rest B W2 E). reflexivity.
  - pose proof (word_len _ _ H). destruct f as [|f]; [lia|]. exists f. split; [lia|]. rewrite <- (app_nil_l (t ++ rest)). rewrite (shlex_word f [] t k rest ltac:(constructor) H E). reflexivity.
Qed.
Lemma entry_59 : forall k v t, entry k v t -> ~ In 59 t.
Proof. intros k v t (_ & H). destruct v; [destruct H as (t1 & b & t2 & -> & W1 & B & Nb & W2)|]. - intros I. apply in_app_or in I. destruct I as [I|I]; [exact (spells_59 _ _ _ (proj1 (proj2 W1)) I)|]. apply in_app_or in I. destruct I as [I|I]; [exact (blanks_59 _ B I)|exact (spells_59 _ _ _ (proj1 (proj2 W2)) I)]. - exact (spells_59 _ _ _ (proj1 (proj2 H))). Qed.
Lemma entry_nonempty : forall k v t, entry k v t -> t <> [].
Proof. intros k v t (_ & H). destruct v; [destruct H as (t1 & b & t2 & -> & (N & _) & _); destruct t1; [congruence|discriminate]|exact (proj1 H)]. Qed.
Lemma entry_hard : forall k v t, entry k v t -> hard t /\ hard (rev t).
Proof.
  intros k v t (_ & H). destruct v; [destruct H as (t1 & b & t2 & -> & W1 & B & Nb & W2)|].
  - split; [apply hard_app; [apply W1|exact (spells_hard _ _ (proj1 (proj2 W1)))]|]. rewrite app_assoc, rev_app_distr. apply hard_app; [intros X; apply (f_equal (@rev Z)) in X; rewrite rev_involutive in X; exact (proj1 W2 X)|]. apply hard_last. exact (spells_last _ _ _ (proj1 (proj2 W2))).
  - split; [exact (spells_hard _ _ (proj1 (proj2 H)))|]. apply hard_last. exact (spells_last _ _ _ (proj1 (proj2 H))).
Qed.
Lemma no_brace : forall k v t, entry k v t -> existsb (zlist_eqb [123]) (strings k v) = false /\ existsb (zlist_eqb [125]) (strings k v) = false.
Proof.
  intros k v t (_ & H). assert (G : forall k, k <> [123] -> k <> [125] -> zlist_eqb [123] k = false /\ zlist_eqb [125] k = false) by (intros k0 N1 N2; split; match goal with |- ?x = false => destruct x eqn:E end; try reflexivity; apply zlist_eqb_eq in E; congruence).
  destruct v as [v|]; [destruct H as (t1 & b & t2 & _ & (_ & _ & A1 & A2) & _ & _ & (_ & _ & B1 & B2))|destruct H as (_ & _ & A1 & A2)]; cbn [strings existsb]; destruct (G k A1 A2) as [-> ->]; [destruct (G v B1 B2) as [-> ->]|]; auto.
Qed.
Lemma line_entry : forall inc n k v t b c, entry k v t -> blanks b -> parse_line inc n (t ++ b) c = createSubtree c k v.
Proof.
  intros inc n k v t b c H B. assert (N59 : ~ In 59 (t ++ b)) by (intros I; apply in_app_or in I; destruct I as [I|I]; [exact (entry_59 _ _ _ H I)|exact (blanks_59 _ B I)]).
  destruct (shlex_rest (S (length (t ++ b))) k v t b H) as (f' & _ & E); [rewrite <- (app_nil_r b); apply ends_blanks; [exact B|exact I]|rewrite app_length; lia|]. rewrite (shlex_end f' b B), app_nil_r in E. destruct (no_brace k v t H) as [E1 E2].
  assert (Nt : exists d s, t ++ b = d :: s) by (pose proof (entry_nonempty _ _ _ H); destruct t; [congruence|eexists; eexists; reflexivity]). destruct Nt as (d & s & Et).
  assert (Ei : zlist_eqb k INCLUDE = false) by (destruct (zlist_eqb k INCLUDE) eqn:X; [apply zlist_eqb_eq in X; destruct H as (Nk & _); unfold INCLUDE in X; congruence|reflexivity]).
  destruct n; cbn [parse_line]; rewrite (find_none 59 _ N59), Et; cbv iota zeta; rewrite <- Et; unfold shlex_split; rewrite E, E1, E2; cbn [negb andb strings]; rewrite Ei; destruct v; reflexivity.
Qed.
Lemma line_skip : forall inc n l c, skipped l -> parse_line inc n (strip l) c = Ok c.
Proof. intros inc n l c H. pose proof (cut_skipped l H) as E. unfold cut in E. destruct n; cbn [parse_line]; rewrite E; reflexivity. Qed.
Lemma line_brace : forall inc n t l c, padded t l -> t = [123] \/ t = [125] -> parse_line inc n (strip l) c = if zlist_eqb t [123] then openSection c else closeSection c.
Proof.
  intros inc n t l c P H. assert (E : cut (strip l) = t) by (apply cut_padded; [exact P|..]; destruct H as [-> | ->]; cbn; try reflexivity; intros X; lia). rewrite parse_cut by (rewrite E; destruct H as [-> | ->]; cbn; lia). rewrite E. destruct H as [-> | ->]; destruct n; reflexivity.
Qed.
Lemma line_padded : forall inc n k v t l c, entry k v t -> padded t l -> parse_line inc n (strip l) c = createSubtree c k v.
Proof.
  intros inc n k v t l c H P. destruct (entry_hard _ _ _ H) as [H1 H2]. assert (E : cut (strip l) = t) by (apply cut_padded; [exact P|exact (entry_59 _ _ _ H)|exact H1|exact H2]). rewrite parse_cut by (rewrite E; exact (entry_59 _ _ _ H)). rewrite E. rewrite <- (app_nil_r t). apply line_entry; [exact H|constructor].
Qed.
Lemma existsb_last : forall (f : str -> bool) l x, f x = true -> existsb f (l ++ [x]) = true.
Proof. intros f l x H. rewrite existsb_app. cbn. rewrite H. apply orb_true_r. Qed.
Lemma line_open : forall inc n k v t b l c, entry k v t -> ~ In 123 t -> blanks b -> b <> [] -> padded (t ++ b ++ [123]) l -> parse_line inc (S n) (strip l) c = (c1 <-- createSubtree c k v ;; openSection c1).
Proof.
  intros inc n k v t b l c H N B Nb P. destruct (entry_hard _ _ _ H) as [H1 H2]. pose proof (entry_nonempty _ _ _ H) as Nt.
  assert (N59 : ~ In 59 (t ++ b ++ [123])) by (intros I; apply in_app_or in I; destruct I as [I|I]; [exact (entry_59 _ _ _ H I)|]; apply in_app_or in I; destruct I as [I|I]; [exact (blanks_59 _ B I)|cbn in I; lia]).
  assert (E : cut (strip l) = t ++ b ++ [123]) by (apply cut_padded; [exact P|exact N59|apply hard_app; assumption|rewrite !rev_app_distr; reflexivity]). rewrite parse_cut by (rewrite E; exact N59). rewrite E.
  destruct (shlex_rest (S (length (t ++ b ++ [123]))) k v t (b ++ [123]) H) as (f' & Lf & Es); [apply blanks_ends; assumption|rewrite app_length; lia|].
  assert (Es' : shlex f' (b ++ [123]) = [[123]]). { assert (f' <> 0%nat) by (rewrite !app_length in Lf; cbn [length] in Lf; pose proof (word_len t k); destruct t; [congruence|]; destruct b; [congruence|]; cbn [length] in Lf; lia). destruct f' as [|f']; [congruence|]. cbn [shlex]. rewrite skip_blanks by exact B. cbn. destruct f'; reflexivity. }
  rewrite Es' in Es. assert (Et : exists d s, t ++ b ++ [123] = d :: s) by (destruct t; [congruence|eexists; eexists; reflexivity]). destruct Et as (d & s & Et).
  assert (Ef : exists a, find_char 123 (t ++ b ++ [123]) = Some (d :: a, [123]) /\ d :: a = t ++ b). { rewrite app_assoc. rewrite find_first by (intros I; apply in_app_or in I; destruct I as [I|I]; [exact (N I)|unfold blanks in B; rewrite Forall_forall in B; specialize (B _ I); lia]). destruct t as [|d' t]; [congruence|]. cbn [app] in Et |- *. injection Et as <- _. exists (t ++ b). auto. } destruct Ef as (a & Ef & Ea).
  cbn [parse_line]. rewrite (find_none 59 _ N59), Et. cbv iota zeta. rewrite <- Et. unfold shlex_split. rewrite Es. rewrite (existsb_last (zlist_eqb [123]) _ [123] eq_refl). cbn [negb andb]. rewrite Ef, Ea. rewrite (line_entry inc n k v t b c H B). destruct (createSubtree c k v) as [c1|e]; [|reflexivity]. cbn [rbind]. destruct n; reflexivity.
Qed.

(** ** Layouts *)
Lemma parse_lines_app : forall inc ls ls' c, parse_lines inc (ls ++ ls') c = (c1 <-- parse_lines inc ls c ;; parse_lines inc ls' c1).
Proof. intros inc ls. induction ls as [|l ls IH]; intros ls' c; [reflexivity|]. cbn [app parse_lines]. destruct (parse_line inc 1 (strip l) c) as [c1|e]; [|reflexivity]. cbn [rbind]. apply IH. Qed.
Lemma parse_skipped : forall inc ls c, Forall skipped ls -> parse_lines inc ls c = Ok c.
Proof. intros inc ls c H. induction H as [|l ls Hl _ IH]; [reflexivity|]. cbn [parse_lines]. rewrite line_skip by exact Hl. exact IH. Qed.
Lemma open_last : forall st v l k t, openSection (At st (Tree v (l ++ [(k, t)]))) = Ok (At (Frame v l k :: st) t).
Proof. intros. cbn [openSection]. rewrite rev_app_distr. cbn. rewrite rev_involutive. reflexivity. Qed.
Lemma lays_ok : forall inc ch ls, lays ch ls -> forall st v l, parse_lines inc ls (At st (Tree v l)) = Ok (At st (Tree v (l ++ ch))).
Proof.
  intros inc ch ls H. induction H as [|l0 ls ch Hs H IH|k v0 t l0 ls ch He Hp H IH|k v0 t l0 mid l1 sub body l2 ls ch He Hp Hm Ho Hb IHb Hc H IH|k v0 t b l0 sub body l2 ls ch He Nb Bb Bn Hp Hb IHb Hc H IH]; intros st v l.
  - cbn. rewrite app_nil_r. reflexivity.
  - cbn [parse_lines]. rewrite line_skip by exact Hs. apply IH.
  - cbn [parse_lines]. rewrite (line_padded inc 1 k v0 t l0 _ He Hp). cbn [createSubtree rbind]. rewrite IH, <- app_assoc. reflexivity.
  - cbn [parse_lines]. rewrite (line_padded inc 1 k v0 t l0 _ He Hp). cbn [createSubtree rbind]. rewrite parse_lines_app, (parse_skipped inc mid _ Hm). cbn [rbind parse_lines]. rewrite (line_brace inc 1 _ _ _ Ho (or_introl eq_refl)). change (zlist_eqb [123] [123]) with true. cbv iota. rewrite open_last. cbn [rbind]. rewrite parse_lines_app, IHb. cbn [rbind parse_lines app]. rewrite (line_brace inc 1 _ _ _ Hc (or_intror eq_refl)). change (zlist_eqb [125] [123]) with false. cbn [closeSection rbind]; unfold up; cbn [f_value f_before f_key]. rewrite IH, <- app_assoc. reflexivity.
  - cbn [parse_lines]. rewrite (line_open inc 0 k v0 t b l0 _ He Nb Bb Bn Hp). cbn [createSubtree rbind]. rewrite open_last. cbn [rbind]. rewrite parse_lines_app, IHb. cbn [rbind parse_lines app]. rewrite (line_brace inc 1 _ _ _ Hc (or_intror eq_refl)). change (zlist_eqb [125] [123]) with false. cbn [closeSection rbind]; unfold up; cbn [f_value f_before f_key]. rewrite IH, <- app_assoc. reflexivity.
Qed.
Lemma split_no_break : forall l cur rest, no_break l -> split_lines (l ++ rest) cur = split_lines rest (rev l ++ cur).
Proof.
  induction l as [|c l IH]; intros cur rest H; [reflexivity|]. inversion H as [|? ? Hc Hl]; subst. cbn [app split_lines rev]. destruct (is_break c) eqn:E; [apply break_iff in E; tauto|]. rewrite IH by exact Hl. rewrite <- app_assoc. reflexivity.
Qed.
Lemma text_lines_ok : forall t ls, text_lines t ls -> splitlines t = ls.
Proof.
  intros t ls H. induction H as [|l H N|l e t ls Hl He H IH]; [reflexivity|..]; unfold splitlines in *.
  - rewrite <- (app_nil_r l), split_no_break by exact H. cbn [split_lines]. rewrite !app_nil_r. destruct (rev l) as [|c r] eqn:E; [apply (f_equal (@rev Z)) in E; rewrite rev_involutive in E; exfalso; exact (N E)|]. rewrite <- E, rev_involutive. reflexivity.
  - rewrite split_no_break by exact Hl. rewrite app_nil_r. destruct He as [-> | ->]; cbn [app split_lines]; rewrite ?rev_involutive, IH; reflexivity.
Qed.

(** ** Lookup *)
Lemma parts_nonempty : forall s, parts s <> [].
Proof. intros [|c s]; cbn [parts]; [discriminate|]. destruct (c =? 47); [discriminate|]. destruct (parts s); discriminate. Qed.
Lemma path_slash : forall k, path (47 :: k) = path k.
Proof. reflexivity. Qed.
Lemma path_lslash : forall k, path (lslash k) = path k.
Proof. induction k as [|c k IH]; [reflexivity|]. cbn [lslash]. destruct (Z.eqb_spec c 47) as [->|N]; [rewrite path_slash; exact IH|reflexivity]. Qed.
Lemma lslash_head : forall k c r, lslash k = c :: r -> c <> 47 /\ (length (c :: r) <= length k)%nat.
Proof. induction k as [|d k IH]; intros c r E; [discriminate E|]. cbn [lslash] in E. destruct (Z.eqb_spec d 47) as [->|N]; [destruct (IH c r E) as [A B]; split; [exact A|cbn [length] in *; lia]|]. injection E as <- <-. auto. Qed.
Lemma find_some : forall c s a b, find_char c s = Some (a, b) -> s = a ++ b /\ ~ In c a /\ exists b', b = c :: b'.
Proof.
  intros c s. induction s as [|d s IH]; intros a b E; [discriminate E|]. cbn [find_char] in E. destruct (Z.eqb_spec d c) as [->|N]; [injection E as <- <-; split; [reflexivity|]; split; [intros []|eauto]|]. destruct (find_char c s) as [[a' b']|] eqn:F; [|discriminate E]. injection E as <- <-. destruct (IH a' b' eq_refl) as (-> & A & B). split; [reflexivity|]. split; [|exact B]. intros [X|X]; [congruence|exact (A X)].
Qed.
Lemma find_none_inv : forall c s, find_char c s = None -> ~ In c s.
Proof. intros c s. induction s as [|d s IH]; intros E; [intros []|]. cbn [find_char] in E. destruct (Z.eqb_spec d c) as [->|N]; [discriminate E|]. destruct (find_char c s) as [[a' b']|] eqn:F; [discriminate E|]. intros [X|X]; [congruence|exact (IH eq_refl X)]. Qed.
Lemma parts_app : forall a b, ~ In 47 a -> parts (a ++ 47 :: b) = a :: parts b.
Proof. induction a as [|c a IH]; intros b N; [reflexivity|]. cbn [app parts]. destruct (Z.eqb_spec c 47) as [->|_]; [exfalso; apply N; left; reflexivity|]. rewrite IH by (intros X; apply N; right; exact X). reflexivity. Qed.
Lemma parts_one : forall a, ~ In 47 a -> parts a = [a].
Proof. induction a as [|c a IH]; intros N; [reflexivity|]. cbn [parts]. destruct (Z.eqb_spec c 47) as [->|_]; [exfalso; apply N; left; reflexivity|]. rewrite IH by (intros X; apply N; right; exact X). reflexivity. Qed.
Lemma select_one : forall k t, select [k] t = subtrees t k.
Proof. intros k t. cbn [select]. unfold subtrees. induction (map snd _) as [|x l IH]; [reflexivity|]. cbn. f_equal. exact IH. Qed.
Lemma getitem_ok : forall f t key, (length key <= f)%nat -> getitem f t key = select (path key) t.
Proof.
  induction f as [|f IH]; intros t key L.
  - destruct key; [reflexivity|cbn in L; lia].
  - cbn [getitem]. rewrite <- (path_lslash key). destruct (lslash key) as [|c k] eqn:E; [reflexivity|]. destruct (lslash_head _ _ _ E) as [Nc Lk]. destruct (find_char 47 (c :: k)) as [[p rest]|] eqn:F.
    + destruct (find_some _ _ _ _ F) as (Ek & Np & b' & ->). rewrite Ek. unfold path. rewrite parts_app by exact Np. destruct p as [|c' p]; [cbn [app] in Ek; congruence|]. cbn [filter select tl]. fold (path b'). unfold subtrees. rewrite Ek, app_length in Lk. cbn [length] in Lk. induction (map snd _) as [|x l IHl]; [reflexivity|]. cbn [flat_map]. rewrite IH by lia. f_equal. exact IHl.
    + apply find_none_inv in F. unfold path. rewrite parts_one by exact F. cbn [filter]. rewrite select_one. reflexivity.
Qed.

(** ** Writing *)
Lemma plain_spells : forall k, Forall (fun c => plain c /\ ~ white c) k -> spells false k k.
Proof. intros k H. induction H as [|c k ((A & B & C & D) & W) _ IH]; [constructor|]. constructor; auto. Qed.
Lemma key_word : forall k, p_key k -> word k k.
Proof. intros k (N & H & A & B & _). split; [exact N|]. split; [apply plain_spells; exact H|]. split; assumption. Qed.
Lemma quoted_spells : forall v, Forall plain v -> spells true (v ++ [34]) v.
Proof. intros v H. induction H as [|c v (A & B & C & D) _ IH]; cbn [app]; [apply Sp_quote; constructor|]. constructor; auto. intros X. discriminate X. Qed.
Lemma value_word : forall v, p_val (Some v) -> word (34 :: v ++ [34]) v.
Proof. intros v (N & H & A & B). split; [discriminate|]. split; [apply Sp_quote; apply quoted_spells; exact H|]. split; assumption. Qed.
Definition value_text (v : option str) : str := match v with Some (c :: v) => 34 :: (c :: v) ++ [34] | _ => [] end.
Definition entry_text (k : str) (v : option str) : str := match v with Some (c :: v) => k ++ [32] ++ 34 :: (c :: v) ++ [34] | _ => k end.
Lemma entry_printed : forall k v, p_key k -> p_val v -> entry k v (entry_text k v).
Proof.
  intros k v K V. split; [apply K|]. destruct v as [[|c v]|]; [exfalso; apply (proj1 V); reflexivity| |exact (key_word k K)].
  exists k, [32], (34 :: (c :: v) ++ [34]). split; [reflexivity|]. split; [exact (key_word k K)|]. split; [constructor; [left; reflexivity|constructor]|]. split; [discriminate|]. exact (value_word (c :: v) V).
Qed.
Lemma padded_printed : forall n k v, padded (entry_text k v) (spaces n ++ k ++ 32 :: value_text v).
Proof.
  intros n k v. destruct v as [[|c v]|].
  - exists (spaces n), [32], []. split; [reflexivity|]. split; [apply Forall_forall; intros x I; apply repeat_spec in I; left; exact I|]. split; [constructor; [left; reflexivity|constructor]|left; reflexivity].
  - exists (spaces n), [], []. cbn [entry_text value_text]. split; [rewrite !app_nil_r; reflexivity|]. split; [apply Forall_forall; intros x I; apply repeat_spec in I; left; exact I|]. split; [constructor|left; reflexivity].
  - exists (spaces n), [32], []. split; [reflexivity|]. split; [apply Forall_forall; intros x I; apply repeat_spec in I; left; exact I|]. split; [constructor; [left; reflexivity|constructor]|left; reflexivity].
Qed.
Lemma spaces_no_break : forall n, no_break (spaces n).
Proof. intros n. apply Forall_forall. intros x I. apply repeat_spec in I. subst x. cbn. lia. Qed.
Lemma printed_no_break : forall n k v, p_key k -> p_val v -> no_break (spaces n ++ k ++ 32 :: value_text v).
Proof.
  intros n k v K V. apply Forall_app. split; [apply spaces_no_break|]. apply Forall_app. split; [exact (spells_break _ _ _ (proj1 (proj2 (key_word k K))))|]. constructor; [cbn; lia|]. destruct v as [[|c v]|]; [constructor| |constructor]. exact (spells_break _ _ _ (proj1 (proj2 (value_word (c :: v) V)))).
Qed.
Lemma brace_padded : forall n b, padded [b] (spaces n ++ [b]).
Proof. intros n b. exists (spaces n), [], []. split; [reflexivity|]. split; [apply Forall_forall; intros x I; apply repeat_spec in I; left; exact I|]. split; [constructor|left; reflexivity]. Qed.
Fixpoint regroup (f : nat) (t : tree) : tree :=
  Tree (t_value t) (match f with O => [] | S f' => map (fun p => (fst p, regroup f' (snd p))) (grouped (t_children t)) end).
Lemma group_in : forall f l p, In p (group_by f l) -> In p l.
Proof.
  induction f as [|f IH]; intros l p H; [destruct H|]. destruct l as [|(k, t) r]; [destruct H|]. cbn [group_by] in H. destruct H as [H|H]; [left; exact H|right]. apply in_app_or in H. destruct H as [H|H]; [exact (proj1 (proj1 (filter_In _ _ _) H))|]. apply IH in H. exact (proj1 (proj1 (filter_In _ _ _) H)).
Qed.
Lemma grouped_in : forall l p, In p (grouped l) -> In p l.
Proof. intros l p. apply group_in. Qed.
Lemma named_app : forall k a b, named k (a ++ b) = named k a ++ named k b.
Proof. intros. unfold named. rewrite filter_app, map_app. reflexivity. Qed.
Lemma zlist_refl : forall k, zlist_eqb k k = true.
Proof. intros. apply zlist_eqb_eq. reflexivity. Qed.
Lemma zlist_neq : forall k k', k <> k' -> zlist_eqb k k' = false.
Proof. intros k k' N. destruct (zlist_eqb k k') eqn:E; [apply zlist_eqb_eq in E; congruence|reflexivity]. Qed.
Lemma named_eq : forall k k' r, named k' (filter (fun p => zlist_eqb (fst p) k) r) = if zlist_eqb k k' then named k' r else [].
Proof.
  intros k k' r. induction r as [|(x, t) r IH]; [destruct (zlist_eqb k k'); reflexivity|]. unfold named in *. cbn [filter fst]. destruct (zlist_eqb x k) eqn:E.
  - apply zlist_eqb_eq in E. subst x. cbn [filter fst]. destruct (zlist_eqb k k') eqn:F; [cbn [map]; f_equal; exact IH|exact IH].
  - rewrite IH. destruct (zlist_eqb k k') eqn:F; [|reflexivity]. apply zlist_eqb_eq in F. subst k'. rewrite E. reflexivity.
Qed.
Lemma named_neq : forall k k' r, named k' (filter (fun p => negb (zlist_eqb (fst p) k)) r) = if zlist_eqb k k' then [] else named k' r.
Proof.
  intros k k' r. induction r as [|(x, t) r IH]; [destruct (zlist_eqb k k'); reflexivity|]. unfold named in *. cbn [filter fst]. destruct (zlist_eqb x k) eqn:E; cbn [negb].
  - apply zlist_eqb_eq in E. subst x. rewrite IH. destruct (zlist_eqb k k') eqn:F; reflexivity.
  - cbn [filter fst]. destruct (zlist_eqb k k') eqn:F; [apply zlist_eqb_eq in F; subst k'; rewrite E; exact IH|]. destruct (zlist_eqb x k'); [cbn [map]; f_equal; exact IH|exact IH].
Qed.
Lemma filter_len : forall (A : Type) (f : A -> bool) l, (length (filter f l) <= length l)%nat.
Proof. intros A f l. induction l as [|x l IH]; [reflexivity|]. cbn [filter]. destruct (f x); cbn [length]; lia. Qed.
Lemma group_named : forall f l k, (length l <= f)%nat -> named k (group_by f l) = named k l.
Proof.
  induction f as [|f IH]; intros l k L; [destruct l; [reflexivity|cbn in L; lia]|]. destruct l as [|(k0, t) r]; [reflexivity|]. cbn [group_by]. cbn [length] in L.
  change ((k0, t) :: filter (fun p => zlist_eqb (fst p) k0) r ++ group_by f (filter (fun p => negb (zlist_eqb (fst p) k0)) r)) with ([(k0, t)] ++ filter (fun p => zlist_eqb (fst p) k0) r ++ group_by f (filter (fun p => negb (zlist_eqb (fst p) k0)) r)).
  change ((k0, t) :: r) with ([(k0, t)] ++ r). rewrite !named_app. f_equal. rewrite IH by (eapply Nat.le_trans; [apply filter_len|exact (le_S_n _ _ L)]). rewrite named_eq, named_neq. destruct (zlist_eqb k0 k); [apply app_nil_r|reflexivity].
Qed.
Lemma depth_child : forall (v : option str) l p, In p l -> (t_depth (snd p) < t_depth (Tree v l))%nat.
Proof. intros v l p I. cbn [t_depth]. induction l as [|q l IH]; [destruct I|]. cbn [map fold_right]. destruct I as [->|I]; [lia|]. specialize (IH I). lia. Qed.
Lemma named_map : forall (g : tree -> tree) k l, named k (map (fun p => (fst p, g (snd p))) l) = map g (named k l).
Proof. intros g k l. unfold named. induction l as [|(x, y) l IH]; [reflexivity|]. cbn [map filter fst snd]. destruct (zlist_eqb x k); [cbn [map snd]; f_equal; exact IH|exact IH]. Qed.
Lemma named_in : forall k l t, In t (named k l) -> In (k, t) l.
Proof. intros k l t I. unfold named in I. apply in_map_iff in I. destruct I as ((x & y) & E & I). cbn in E. subst y. apply filter_In in I. destruct I as [I E]. cbn in E. apply zlist_eqb_eq in E. subst x. exact I. Qed.
Lemma regroup_same : forall f t, (t_depth t <= S f)%nat -> same t (regroup f t).
Proof.
  induction f as [|f IH]; intros [v l] L.
  - destruct l as [|p l]; [cbn; constructor; intros k; constructor|]. pose proof (depth_child v (p :: l) p (or_introl eq_refl)) as D. assert (1 <= t_depth (snd p))%nat by (destruct (snd p); cbn; lia). lia.
  - cbn [regroup t_value t_children]. constructor. intros k. rewrite named_map. unfold grouped. rewrite group_named by lia. assert (A : forall t, In t (named k l) -> (t_depth t <= S f)%nat) by (intros t I; apply named_in in I; apply (depth_child v) in I; cbn [snd] in I; lia). induction (named k l) as [|t ts IHt]; [constructor|]. cbn [map]. constructor; [apply IH; apply A; left; reflexivity|]. apply IHt. intros t' I. apply A. right. exact I.
Qed.
Lemma printable_child : forall v l p, printable (Tree v l) -> In p l -> p_key (fst p) /\ printable (snd p).
Proof. intros v l p (_ & H) I. induction l as [|q l IH]; [destruct I|]. cbn in H. destruct H as (A & B & H). destruct I as [->|I]; [auto|exact (IH H I)]. Qed.
(** the text of named subtrees, then [txt] *)
Definition kids (f level : nat) (l : list (str * tree)) : str := flat_map (fun p => spaces level ++ fst p ++ 32 :: print_node f level (snd p)) l.
Lemma print_unfold : forall f level t, print_node f level t = value_text (t_value t) ++ 10 :: match t_children t with [] => [] | l => spaces level ++ 123 :: 10 :: match f with O => [] | S f' => kids f' (level + 2) (grouped l) end ++ spaces level ++ [125; 10] end.
Proof. intros [|f] level t; reflexivity. Qed.
Lemma grouped_nil : forall l, grouped l = [] -> l = [].
Proof. intros [|(k, t) l] H; [reflexivity|discriminate H]. Qed.
Lemma kids_ok : forall f level l, (forall p, In p l -> p_key (fst p) /\ printable (snd p) /\ (t_depth (snd p) <= S f)%nat) ->
  exists ls, (forall ch ls', lays ch ls' -> lays (map (fun p => (fst p, regroup f (snd p))) l ++ ch) (ls ++ ls')) /\ (forall txt ls', text_lines txt ls' -> text_lines (kids f level l ++ txt) (ls ++ ls')).
Proof.
  induction f as [|f IHf]; intros level l H.
  - induction l as [|(k, t) l IHl]; [exists []; auto|]. destruct IHl as (ls & A & B); [intros p I; apply H; right; exact I|]. destruct (H _ (or_introl eq_refl)) as (K & P & D). cbn [fst snd] in K, P, D. destruct t as [v sub]. destruct sub as [|q sub]; [|exfalso; pose proof (depth_child v (q :: sub) q (or_introl eq_refl)) as X; assert (1 <= t_depth (snd q))%nat by (destruct (snd q); cbn; lia); lia].
    exists ((spaces level ++ k ++ 32 :: value_text v) :: ls). split.
    + intros ch ls' L. cbn [map app fst snd regroup t_value]. apply L_entry with (t := entry_text k v); [apply entry_printed; [exact K|exact (proj1 P)]|apply padded_printed|apply A; exact L].
    + intros txt ls' L. cbn [kids flat_map fst snd]. fold (kids 0 level l). rewrite print_unfold. cbn [t_value t_children]. replace ((((spaces level ++ k ++ 32 :: value_text v ++ [10]) ++ kids 0 level l) ++ txt)) with ((spaces level ++ k ++ 32 :: value_text v) ++ [10] ++ (kids 0 level l ++ txt)) by (rewrite <- !app_assoc; cbn [app]; rewrite <- !app_assoc; reflexivity). cbn [app]. apply (Tl_line (spaces level ++ k ++ 32 :: value_text v) [10]); [apply printed_no_break; [exact K|exact (proj1 P)]|left; reflexivity|apply B; exact L].
  - induction l as [|(k, t) l IHl]; [exists []; auto|]. destruct IHl as (ls & A & B); [intros p I; apply H; right; exact I|]. destruct (H _ (or_introl eq_refl)) as (K & P & D). cbn [fst snd] in K, P, D. destruct t as [v sub]. destruct sub as [|q sub'] eqn:Es.
    + exists ((spaces level ++ k ++ 32 :: value_text v) :: ls). split.
      * intros ch ls' L. cbn [map app fst snd regroup t_value t_children]. apply L_entry with (t := entry_text k v); [apply entry_printed; [exact K|exact (proj1 P)]|apply padded_printed|apply A; exact L].
      * intros txt ls' L. cbn [kids flat_map fst snd]. fold (kids (S f) level l). rewrite print_unfold. cbn [t_value t_children]. replace ((((spaces level ++ k ++ 32 :: value_text v ++ [10]) ++ kids (S f) level l) ++ txt)) with ((spaces level ++ k ++ 32 :: value_text v) ++ [10] ++ (kids (S f) level l ++ txt)) by (rewrite <- !app_assoc; cbn [app]; rewrite <- !app_assoc; reflexivity). apply (Tl_line (spaces level ++ k ++ 32 :: value_text v) [10]); [apply printed_no_break; [exact K|exact (proj1 P)]|left; reflexivity|apply B; exact L].
    + rewrite <- Es in *. destruct (IHf (level + 2)%nat (grouped sub)) as (bs & Ab & Bb). { intros p I. apply grouped_in in I. destruct (printable_child _ _ _ P I) as [X Y]. split; [exact X|]. split; [exact Y|]. pose proof (depth_child v sub p I). lia. }
      exists ((spaces level ++ k ++ 32 :: value_text v) :: (spaces level ++ [123]) :: bs ++ (spaces level ++ [125]) :: ls). split.
      * intros ch ls' L. cbn [map app fst snd regroup t_value t_children]. rewrite <- app_assoc. cbn [app]. apply (L_section k v (entry_text k v) _ [] (spaces level ++ [123]) (map (fun p => (fst p, regroup f (snd p))) (grouped sub)) bs (spaces level ++ [125]) (ls ++ ls')); [apply entry_printed; [exact K|exact (proj1 P)]|apply padded_printed|constructor|apply brace_padded| |apply brace_padded|apply A; exact L].
        specialize (Ab [] [] L_end). rewrite !app_nil_r in Ab. exact Ab.
      * intros txt ls' L. cbn [kids flat_map fst snd]. fold (kids (S f) level l). rewrite print_unfold. cbn [t_value t_children].
        replace (match sub with [] => [] | p :: l0 => spaces level ++ 123 :: 10 :: kids f (level + 2) (grouped (p :: l0)) ++ spaces level ++ [125; 10] end) with (spaces level ++ 123 :: 10 :: kids f (level + 2) (grouped sub) ++ spaces level ++ [125; 10]) by (rewrite Es; reflexivity).
        replace ((((spaces level ++ k ++ 32 :: value_text v ++ 10 :: spaces level ++ 123 :: 10 :: kids f (level + 2) (grouped sub) ++ spaces level ++ [125; 10]) ++ kids (S f) level l) ++ txt)) with ((spaces level ++ k ++ 32 :: value_text v) ++ [10] ++ ((spaces level ++ [123]) ++ [10] ++ (kids f (level + 2) (grouped sub) ++ ((spaces level ++ [125]) ++ [10] ++ (kids (S f) level l ++ txt))))) by (rewrite <- !app_assoc; cbn [app]; rewrite <- !app_assoc; cbn [app]; rewrite <- !app_assoc; cbn [app]; rewrite <- !app_assoc; reflexivity).
        cbn [app]. rewrite <- (app_assoc bs). cbn [app]. apply (Tl_line (spaces level ++ k ++ 32 :: value_text v) [10]); [apply printed_no_break; [exact K|exact (proj1 P)]|left; reflexivity|]. apply (Tl_line (spaces level ++ [123]) [10]); [apply Forall_app; split; [apply spaces_no_break|constructor; [cbn; lia|constructor]]|left; reflexivity|]. apply Bb. cbn [app]. apply (Tl_line (spaces level ++ [125]) [10]); [apply Forall_app; split; [apply spaces_no_break|constructor; [cbn; lia|constructor]]|left; reflexivity|]. apply B. exact L.
Qed.
Lemma select_same : forall ks t t', same t t' -> Forall2 same (select ks t) (select ks t').
Proof.
  induction ks as [|k ks IH]; intros t t' H; [constructor; [exact H|constructor]|]. destruct H as [v l l' H]. cbn [select t_children]. specialize (H k). unfold named in H. induction H as [|x y xs ys Hx _ IHx]; [constructor|]. cbn [flat_map]. apply Forall2_app; [apply IH; exact Hx|exact IHx].
Qed.

(** ** Errors *)
Lemma strip_hard : forall s, hard (strip s).
Proof.
  intros s. unfold strip. assert (H : hard (lstrip s)) by (induction s as [|c s IH]; [exact I|cbn [lstrip]; destruct (is_space c) eqn:E; [exact IH|exact E]]). destruct (lstrip s) as [|c r]; [exact I|]. cbn [hard] in H. cbn [rev]. destruct (lstrip_app (rev r) c [] H) as (s' & ->). rewrite rev_app_distr. exact H.
Qed.
Definition parse_error (e : exn) : Prop := e = AttributeError \/ e = RuntimeError \/ e = TypeError.
Lemma strip_keeps : forall c s, ~ In c s -> ~ In c (strip s).
Proof. intros c s N. assert (L : forall s, ~ In c s -> ~ In c (lstrip s)) by (induction s0 as [|d s0 IH]; intros X; [exact X|cbn [lstrip]; destruct (is_space d); [apply IH; intros Y; apply X; right; exact Y|exact X]]). unfold strip. rewrite <- in_rev. apply L. rewrite <- in_rev. apply L. exact N. Qed.
Lemma cut_59 : forall s, ~ In 59 (cut s).
Proof. intros s. unfold cut. destruct (find_char 59 s) as [[a b]|] eqn:F; [apply strip_keeps; exact (proj1 (proj2 (find_some _ _ _ _ F)))|exact (find_none_inv _ _ F)]. Qed.
Lemma create_error : forall c k v e, createSubtree c k v = Err e -> e = AttributeError.
Proof. intros [st [v0 l]|r] k v e H; [discriminate H|]. injection H as <-. reflexivity. Qed.
Lemma section_error : forall c e, openSection c = Err e \/ closeSection c = Err e -> e = AttributeError.
Proof.
  intros c e [H|H]; destruct c as [st t|r]; try (injection H as <-; reflexivity); [destruct t as [v l]; cbn [openSection] in H; destruct (rev l) as [|(k, t) b]; discriminate H|destruct st; discriminate H].
Qed.
Lemma hard_strings : forall s, s <> [] -> hard s -> shlex_split s <> [].
Proof. intros s N H. unfold shlex_split. cbn [shlex]. rewrite skip_hard by exact H. destruct s; [congruence|]. discriminate. Qed.
Lemma cut_hard : forall s, hard s -> hard (cut s).
Proof. intros s H. unfold cut. destruct (find_char 59 s) as [[a b]|]; [apply strip_hard|exact H]. Qed.
Lemma line_error : forall inc n s c e, hard s -> (n = 0%nat -> forall a b, find_char 123 (cut s) = Some (a, b) -> a = []) -> parse_line inc n s c = Err e -> parse_error e \/ exists f c', inc f c' = Err e.
Proof.
  intros inc n. induction n as [|n IH]; intros s c e Hs N H; apply cut_hard in Hs; pose proof (cut_59 s) as N59; cbn [parse_line] in H; fold (cut s) in H.
  - destruct (cut s) as [|c0 r] eqn:Ec; [discriminate H|]. cbv zeta in H. assert (Hn : shlex_split (c0 :: r) <> []) by (apply hard_strings; [discriminate|exact Hs]). destruct (negb (existsb (zlist_eqb [123]) (shlex_split (c0 :: r))) && negb (existsb (zlist_eqb [125]) (shlex_split (c0 :: r)))).
    + destruct (shlex_split (c0 :: r)) as [|key rest]; [congruence|]. destruct (zlist_eqb key INCLUDE).
      * destruct rest as [|v rest]; [injection H as <-; left; right; right; reflexivity|right; eauto].
      * left. left. exact (create_error _ _ _ _ H).
    + specialize (N eq_refl). destruct (find_char 123 (c0 :: r)) as [[[|d a] b]|]; [| specialize (N _ _ eq_refl); discriminate N|].
      * destruct (c0 =? 123); [left; left; eapply section_error; left; exact H|]. destruct (c0 =? 125); [left; left; eapply section_error; right; exact H|]. injection H as <-. left. right. left. reflexivity.
      * destruct (c0 =? 123); [left; left; eapply section_error; left; exact H|]. destruct (c0 =? 125); [left; left; eapply section_error; right; exact H|]. injection H as <-. left. right. left. reflexivity.
  - destruct (cut s) as [|c0 r] eqn:Ec; [discriminate H|]. cbv zeta in H. assert (Hn : shlex_split (c0 :: r) <> []) by (apply hard_strings; [discriminate|exact Hs]). destruct (negb (existsb (zlist_eqb [123]) (shlex_split (c0 :: r))) && negb (existsb (zlist_eqb [125]) (shlex_split (c0 :: r)))).
    + destruct (shlex_split (c0 :: r)) as [|key rest]; [congruence|]. destruct (zlist_eqb key INCLUDE).
      * destruct rest as [|v rest]; [injection H as <-; left; right; right; reflexivity|right; eauto].
      * left. left. exact (create_error _ _ _ _ H).
    + destruct (find_char 123 (c0 :: r)) as [[[|d a] b]|] eqn:F.
      * destruct (c0 =? 123); [left; left; eapply section_error; left; exact H|]. destruct (c0 =? 125); [left; left; eapply section_error; right; exact H|]. injection H as <-. left. right. left. reflexivity.
      * destruct (find_some _ _ _ _ F) as (Er & Na & b' & ->). assert (Nd : ~ In 59 (d :: a)) by (intros X; apply N59; rewrite Er; apply in_or_app; left; exact X). assert (Nb : ~ In 59 (123 :: b')) by (intros X; apply N59; rewrite Er; apply in_or_app; right; exact X).
        assert (C1 : cut (d :: a) = d :: a) by (unfold cut; rewrite find_none by exact Nd; reflexivity). assert (C2 : cut (123 :: b') = 123 :: b') by (unfold cut; rewrite find_none by exact Nb; reflexivity).
        destruct (parse_line inc n (d :: a) c) as [c1|e1] eqn:P1; cbn [rbind] in H.
        -- apply (IH (123 :: b') c1 e); [reflexivity| |exact H]. intros _ x y Fx. rewrite C2 in Fx. cbn in Fx. injection Fx as <- _. reflexivity.
        -- injection H as <-. apply (IH (d :: a) c e1); [|intros _ x y Fx; rewrite C1, (find_none _ _ Na) in Fx; discriminate Fx|exact P1]. injection Er as -> _. exact Hs.
      * destruct (c0 =? 123); [left; left; eapply section_error; left; exact H|]. destruct (c0 =? 125); [left; left; eapply section_error; right; exact H|]. injection H as <-. left. right. left. reflexivity.
Qed.
Lemma lines_error : forall inc ls c e, parse_lines inc ls c = Err e -> parse_error e \/ exists f c', inc f c' = Err e.
Proof.
  intros inc ls. induction ls as [|l ls IH]; intros c e H; [discriminate H|]. cbn [parse_lines] in H. destruct (parse_line inc 1 (strip l) c) as [c1|e1] eqn:P; cbn [rbind] in H; [exact (IH _ _ H)|]. injection H as <-. apply (line_error inc 1 (strip l) c e1); [apply strip_hard|intros X; discriminate X|exact P].
Qed.
Lemma read_error : forall open_file fuel input c e, read_input open_file fuel input c = Err e -> parse_error e \/ (exists f, open_file f = Err e) \/ e = OutOfFuel.
Proof.
  intros open_file fuel. induction fuel as [|fuel IH]; intros input c e H; cbn [read_input] in H; destruct (lines_error _ _ _ _ H) as [X|(f & c' & X)]; auto.
  - injection X as <-. auto.
  - destruct (open_file f) as [t|e1] eqn:O; cbn [rbind] in X; [exact (IH _ _ _ X)|]. injection X as <-. right. left. eauto.
Qed.
