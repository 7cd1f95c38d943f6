(** * Proofs about the NDN regular expressions *)
From Verif Require Import Base BaseLemmas NameModel UriModel BlobModel RegexModel RegexSpec.
From Coq Require Import Arith.

Section P.
Variable re_groups : str -> res nat.
Variable re_search : str -> str -> option (list (option str)).
Notation groups := (groups re_groups).
Notation found := (found re_search).
Notation lang_item := (lang_item re_search).
Notation lang := (lang re_search).
Notation nrefs_item := (nrefs_item re_groups).
Notation nrefs := (nrefs re_groups).
Notation caps_item := (caps_item re_groups re_search).
Notation caps_of := (caps_of re_groups re_search).
Notation wf_item := (wf_item re_groups).
Notation wf := (wf re_groups).
Notation strict_item := (strict_item re_search).
Notation strict := (strict re_search).
Notation m_match := (m_match re_search).
Notation l_match := (l_match re_search).

Section Ind.
Variable P : item -> Prop.
Hypothesis H1 : forall t q, P (One t q).
Hypothesis H2 : forall neg ts q, P (Set_ neg ts q).
Hypothesis H3 : forall l q, Forall P l -> P (Group l q).
Fixpoint item_ind2 (i : item) : P i :=
  match i with
  | One t q => H1 t q
  | Set_ neg ts q => H2 neg ts q
  | Group l q => H3 l q ((fix f (l : list item) : Forall P l := match l with [] => Forall_nil _ | i :: l' => Forall_cons i (item_ind2 i) (f l') end) l)
  end.
End Ind.

(** the nested fixpoints are the ones of lists *)
Lemma lang_group : forall l q w, lang_item (Group l q) w = reps q (lang l) w.
Proof. reflexivity. Qed.
Lemma wf_group : forall l q, wf_item (Group l q) <-> wf l /\ balanced 40 41 (e_text l) /\ q_ok q.
Proof.
  intros l q. cbn [RegexSpec.wf_item]. apply and_iff_compat_r. unfold RegexSpec.wf. induction l as [|i l IH]; [split; auto|]. split.
  - intros [A B]. constructor; [exact A|apply IH; exact B].
  - intros A. inversion A; subst. split; [assumption|apply IH; assumption].
Qed.
Lemma strict_group : forall l q, strict_item (Group l q) <-> strict l /\ (q = QOne \/ q_min q = 0 \/ ~ lang l []).
Proof.
  intros l q. cbn [RegexSpec.strict_item]. apply and_iff_compat_r. unfold RegexSpec.strict. induction l as [|i l IH]; [split; auto|]. split.
  - intros [A B]. constructor; [exact A|apply IH; exact B].
  - intros A. inversion A; subst. split; [assumption|apply IH; assumption].
Qed.
Lemma caps_group : forall k l q w s, caps_item k (Group l q) w s = reps_caps q (fun v s => exists s', s = (k, v) :: s' /\ caps_of (S k) l v s') w s.
Proof. reflexivity. Qed.
Lemma nrefs_group : forall l q, nrefs_item (Group l q) = S (nrefs l).
Proof. reflexivity. Qed.

(** ** The matchers of an expression *)
Definition q_pair (q : quant) : Z * Z := (q_min q, match q_max q with Some m => m | None => 32767 end).
Fixpoint tr_cms (k : nat) (ts : list str) : list cm :=
  match ts with [] => [] | t :: ts' => Cm t k (groups t) :: tr_cms (k + groups t) ts' end.
Fixpoint tr_item (k : nat) (i : item) : matcher :=
  match i with
  | One t q => MRep (MSet true (tr_cms k [t])) (fst (q_pair q)) (snd (q_pair q))
  | Set_ neg ts q => MRep (MSet (negb neg) (tr_cms k ts)) (fst (q_pair q)) (snd (q_pair q))
  | Group l q =>
      let g := MGroup k ((fix tr (k : nat) (l : list item) : list matcher := match l with [] => [] | i :: l' => tr_item k i :: tr (k + nrefs_item i)%nat l' end) (S k) l) in
      match q with QOne => g | _ => MRep g (fst (q_pair q)) (snd (q_pair q)) end
  end.
Fixpoint tr (k : nat) (e : list item) : list matcher := match e with [] => [] | i :: e' => tr_item k i :: tr (k + nrefs_item i) e' end.
Lemma tr_group : forall k l q, tr_item k (Group l q) = match q with QOne => MGroup k (tr (S k) l) | _ => MRep (MGroup k (tr (S k) l)) (fst (q_pair q)) (snd (q_pair q)) end.
Proof. reflexivity. Qed.
Lemma m_group : forall k l w s, m_match (MGroup k l) w s =
  match try_from (fun tried s => match l_match l (firstn tried w) s with (s', true) => (s', zlen w - Z.of_nat tried =? 0) | (s', false) => (s', false) end) (length w) (set_ref s k []) with
  | (s', true) => (set_ref s' k w, true)
  | (s', false) => (s', false)
  end.
Proof. reflexivity. Qed.

(** ** What a successful match means *)
Definition frame (a b : nat) (s s' : refs) : Prop := forall j, (j < a \/ b <= j)%nat -> s' j = s j.
Definition agree (s : refs) (c : caps) : Prop := forall j v, In (j, v) c -> s j = v.
Definition inside (a b : nat) (c : caps) : Prop := forall j v, In (j, v) c -> (a <= j < b)%nat.
Lemma frame_refl : forall a b s, frame a b s s.
Proof. intros a b s j _. reflexivity. Qed.
Lemma frame_trans : forall a b s1 s2 s3, frame a b s1 s2 -> frame a b s2 s3 -> frame a b s1 s3.
Proof. intros a b s1 s2 s3 H H' j Hj. rewrite (H' j Hj). apply H. exact Hj. Qed.
Lemma frame_sub : forall a b a' b' s s', (a' <= a)%nat -> (b <= b')%nat -> frame a b s s' -> frame a' b' s s'.
Proof. intros a b a' b' s s' H1 H2 F j Hj. apply F. lia. Qed.
Lemma frame_set : forall a b s k v, (a <= k < b)%nat -> frame a b s (set_ref s k v).
Proof. intros a b s k v H j Hj. unfold set_ref. destruct (Nat.eqb_spec j k); [lia|reflexivity]. Qed.
Lemma agree_frame : forall a b c s s', inside a b c -> agree s c -> (forall j, (a <= j < b)%nat -> s' j = s j) -> agree s' c.
Proof. intros a b c s s' I A F j v Hj. rewrite F; [apply A; exact Hj|]. eapply I. exact Hj. Qed.

Lemma try_from_sound : forall a b f n s s' r, (forall t s1 s2 r', (t <= n)%nat -> f t s1 = (s2, r') -> frame a b s1 s2) -> try_from f n s = (s', r) ->
  frame a b s s' /\ (r = true -> exists t s0, (t <= n)%nat /\ frame a b s s0 /\ f t s0 = (s', true)).
Proof.
  intros a b f n. induction n as [|n IH]; intros s s' r Hf; cbn [try_from].
  - destruct (f 0%nat s) as [s1 [|]] eqn:E; intros [= <- <-]; (split; [eapply Hf; [|exact E]; lia|]); [|discriminate]. intros _. exists 0%nat, s. split; [lia|]. split; [apply frame_refl|exact E].
  - destruct (f (S n) s) as [s1 [|]] eqn:E.
    + intros [= <- <-]. split; [eapply Hf; [|exact E]; lia|]. intros _. exists (S n), s. split; [lia|]. split; [apply frame_refl|exact E].
    + intros X. assert (F1 : frame a b s s1) by (eapply Hf; [|exact E]; lia). destruct (IH s1 s' r) as [F2 F3]; [intros t s2 s3 r' Ht; apply Hf; lia|exact X|]. split; [eapply frame_trans; eassumption|].
      intros Hr. destruct (F3 Hr) as (t & s0 & Ht & Fs & Ef). exists t, s0. split; [lia|]. split; [eapply frame_trans; eassumption|exact Ef].
Qed.
Lemma try_from_complete : forall f n t, (t <= n)%nat -> (forall s, snd (f t s) = true) -> forall s, snd (try_from f n s) = true.
Proof.
  intros f n. induction n as [|n IH]; intros t Ht Hf s; cbn [try_from].
  - assert (t = 0)%nat by lia. subst t. specialize (Hf s). destruct (f 0%nat s) as [s1 [|]]; [reflexivity|discriminate Hf].
  - destruct (f (S n) s) as [s1 [|]] eqn:E; [reflexivity|]. destruct (Nat.eq_dec t (S n)) as [->|N]; [specialize (Hf s); rewrite E in Hf; discriminate Hf|]. apply (IH t); [lia|exact Hf].
Qed.

(** one component *)
Lemma set_pseudo_spec : forall g s k, frame k (k + length g) s (set_pseudo s k g) /\ agree (set_pseudo s k g) (combine (seq k (length g)) (map (fun x => [comp_of_str x]) g)).
Proof.
  induction g as [|t g IH]; intros s k; cbn [set_pseudo length seq map combine].
  - split; [apply frame_refl|intros j v []].
  - destruct (IH (set_ref s k [comp_of_str t]) (S k)) as [F A]. split.
    + eapply frame_trans; [apply (frame_set k _ s k); lia|]. eapply frame_sub; [| |exact F]; lia.
    + intros j v [[= <- <-]|I]; [|apply A; exact I]. rewrite F by lia. unfold set_ref. rewrite Nat.eqb_refl. reflexivity.
Qed.
Lemma text_comp_eq : forall t, text_comp t = comp_of_str t.
Proof. intros [t|]; reflexivity. Qed.
Lemma combine_firstn : forall (A B : Type) n k (g : list A) (f : A -> B), combine (seq k n) (map f g) = combine (seq k (length (firstn n g))) (map f (firstn n g)).
Proof.
  intros A B n. induction n as [|n IH]; intros k g f; [reflexivity|]. destruct g as [|x g]; [reflexivity|]. cbn [firstn length seq map combine]. f_equal. apply IH.
Qed.
Lemma set_match_sound : forall ts k c s s' r, set_match re_search (tr_cms k ts) c s = (s', r) ->
  frame k (k + list_sum (map groups ts)) s s' /\
  match set_caps re_groups re_search k ts c with
  | Some g => r = true /\ agree s' g /\ inside k (k + list_sum (map groups ts)) g
  | None => r = false
  end.
Proof.
  induction ts as [|t ts IH]; intros k c s s' r; cbn [tr_cms set_match set_caps].
  - intros [= <- <-]. split; [apply frame_refl|reflexivity].
  - unfold cm_match. cbn [cm_expr cm_ref cm_groups]. replace (list_sum (map groups (t :: ts))) with (groups t + list_sum (map groups ts))%nat by reflexivity. destruct t as [|x t0] eqn:Et.
    + intros [= <- <-]. split; [apply frame_refl|]. split; [reflexivity|]. split; intros j v [].
    + rewrite <- Et in *. clear Et. destruct (re_search t (c_toEscapedString c)) as [g|] eqn:Eg.
      * intros [= <- <-]. destruct (set_pseudo_spec (firstn (groups t) g) s k) as [F A]. pose proof (firstn_le_length (groups t) g) as L.
        split; [eapply frame_sub; [| |exact F]; lia|]. split; [reflexivity|].
        assert (E : combine (seq k (groups t)) (map (fun x => [text_comp x]) g) = combine (seq k (length (firstn (groups t) g))) (map (fun x => [comp_of_str x]) (firstn (groups t) g))).
        { rewrite combine_firstn. reflexivity. }
        rewrite E. split; [exact A|]. intros j v I. apply in_combine_l in I. apply in_seq in I. lia.
      * intros X. destruct (IH _ _ _ _ _ X) as [F R]. split; [eapply frame_sub; [| |exact F]; lia|]. destruct (set_caps re_groups re_search (k + groups t) ts c) as [g|]; [|exact R]. destruct R as (R1 & R2 & R3). split; [exact R1|]. split; [exact R2|]. intros j v I. apply R3 in I. lia.
Qed.
Lemma member_sound : forall k neg ts w s s' r, m_match (MSet (negb neg) (tr_cms k ts)) w s = (s', r) ->
  frame k (k + list_sum (map groups ts)) s s' /\ (r = true -> exists g, member_caps re_groups re_search k neg ts w g /\ agree s' g /\ inside k (k + list_sum (map groups ts)) g).
Proof.
  intros k neg ts w s s' r. cbn [RegexModel.m_match]. destruct w as [|c [|d w]]; [intros [= <- <-]; split; [apply frame_refl|discriminate]| |intros [= <- <-]; split; [apply frame_refl|discriminate]].
  destruct (set_match re_search (tr_cms k ts) c s) as [s1 b] eqn:E. intros [= <- <-]. destruct (set_match_sound _ _ _ _ _ _ E) as [F R]. split; [exact F|]. intros Hr. unfold member_caps.
  destruct (set_caps re_groups re_search k ts c) as [g|] eqn:Eg.
  - destruct R as (-> & A & I). destruct neg; [discriminate Hr|]. exists g. split; [exists c; rewrite Eg; auto|auto].
  - subst b. destruct neg; [|discriminate Hr]. exists []. split; [exists c; rewrite Eg; auto|]. split; intros j v [].
Qed.

(** repetitions *)
Lemma zlen0 : forall A (w : list A), (zlen w =? 0) = true -> w = [].
Proof. intros A [|x w] H; [reflexivity|]. rewrite zlen_cons in H. pose proof (zlen_nonneg _ w). lia. Qed.
Lemma rec2_sound : forall a b (inner : list comp -> refs -> refs * bool) (R : list comp -> caps -> Prop) mn mx,
  (forall v s s' r, inner v s = (s', r) -> frame a b s s' /\ (r = true -> exists g, R v g /\ agree s' g /\ inside a b g)) ->
  forall n rp w s s' r, recursiveMatch2 inner mn mx n rp w s = (s', r) ->
  frame a b s s' /\
  (r = true -> (w = [] /\ s' = s /\ mn <= rp) \/
    exists ws v g, w = concat (ws ++ [v]) /\ Forall (fun v => exists g, R v g) ws /\ R v g /\ agree s' g /\ inside a b g /\ mn <= rp + zlen ws + 1 <= mx).
Proof.
  intros a b inner R mn mx Hi. induction n as [|n IH]; intros rp w s s' r; cbn [recursiveMatch2].
  - destruct ((0 <? zlen w) && (mx <=? rp)); [intros [= <- <-]; split; [apply frame_refl|discriminate]|]. destruct ((zlen w =? 0) && (rp <? mn)) eqn:E1; [intros [= <- <-]; split; [apply frame_refl|discriminate]|].
    destruct ((zlen w =? 0) && (mn <=? rp)) eqn:E2; intros [= <- <-]; (split; [apply frame_refl|]); [|discriminate]. intros _. left. apply andb_true_iff in E2. destruct E2 as [E2 E3]. apply zlen0 in E2. split; [exact E2|]. split; [reflexivity|lia].
  - destruct ((0 <? zlen w) && (mx <=? rp)) eqn:E0; [intros [= <- <-]; split; [apply frame_refl|discriminate]|]. destruct ((zlen w =? 0) && (rp <? mn)) eqn:E1; [intros [= <- <-]; split; [apply frame_refl|discriminate]|].
    destruct ((zlen w =? 0) && (mn <=? rp)) eqn:E2; [intros [= <- <-]; split; [apply frame_refl|]; intros _; left; apply andb_true_iff in E2; destruct E2 as [E2 E3]; apply zlen0 in E2; split; [exact E2|]; split; [reflexivity|lia]|].
    assert (Lw : 0 < zlen w) by (pose proof (zlen_nonneg _ w); destruct (zlen w =? 0) eqn:Z0; [cbn in E1, E2; lia|lia]). assert (Hmx : rp < mx) by (destruct (0 <? zlen w) eqn:Z1; [cbn in E0; lia|lia]).
    intros X. eapply (try_from_sound a b) in X.
    2:{ intros t s1 s2 r' _. destruct (inner (firstn t w) s1) as [s3 [|]] eqn:Ei; destruct (Hi _ _ _ _ Ei) as [F _]; [|intros [= <- <-]; exact F]. intros Y. destruct (IH _ _ _ _ _ Y) as [F2 _]. eapply frame_trans; eassumption. }
    destruct X as [F X]. split; [exact F|]. intros Hr. right. destruct (X Hr) as (t & s0 & Ht & F0 & Y). destruct (inner (firstn t w) s0) as [s3 [|]] eqn:Ei; [|discriminate Y]. destruct (Hi _ _ _ _ Ei) as [F1 Hg]. destruct (Hg eq_refl) as (g & Rg & Ag & Ig).
    destruct (IH _ _ _ _ _ Y) as [F2 Z]. destruct (Z eq_refl) as [(E & -> & Hm)|(ws & v & g' & E & Fw & Rv & Av & Iv & Hb)].
    + exists [], (firstn t w), g. cbn [app concat]. rewrite app_nil_r. split; [rewrite <- (firstn_skipn t w) at 1; rewrite E, app_nil_r; reflexivity|]. split; [constructor|]. split; [exact Rg|]. split; [exact Ag|]. split; [exact Ig|]. rewrite zlen_nil. lia.
    + exists (firstn t w :: ws), v, g'. cbn [app concat]. split; [rewrite <- E; symmetry; apply firstn_skipn|]. split; [constructor; [exists g; exact Rg|exact Fw]|]. split; [exact Rv|]. split; [exact Av|]. split; [exact Iv|]. rewrite zlen_cons. lia.
Qed.
Lemma decimal_nonneg : forall t, Forall (fun c => 48 <= c <= 57) t -> 0 <= decimal t.
Proof.
  intros t. unfold decimal. assert (G : forall n, 0 <= n -> Forall (fun c => 48 <= c <= 57) t -> 0 <= fold_left (fun n c => n * 10 + (c - 48)) t n).
  { induction t as [|c t IH]; intros n Hn F; [exact Hn|]. inversion F; subst. cbn [fold_left]. apply IH; [lia|assumption]. }
  apply G. lia.
Qed.
Lemma q_pair_ok : forall q, q_ok q -> 0 <= q_min q /\ q_min q <= snd (q_pair q) <= 32767 /\ 0 <= snd (q_pair q).
Proof.
  intros q H. unfold q_pair. destruct q; cbn [q_min q_max snd q_ok] in *; try lia.
  - destruct H as [[_ F] H]. pose proof (decimal_nonneg _ F). lia.
  - destruct H as [[_ F] H]. pose proof (decimal_nonneg _ F). lia.
  - destruct H as [[_ F] H]. pose proof (decimal_nonneg _ F). lia.
  - destruct H as ([_ F] & [_ F'] & H). pose proof (decimal_nonneg _ F). lia.
Qed.
Lemma within_pair : forall q n, q_ok q -> fst (q_pair q) <= Z.of_nat n <= snd (q_pair q) -> within q n.
Proof. intros q n H [A B]. unfold within, q_pair in *. cbn [fst snd] in *. split; [exact A|]. destruct (q_max q); auto. Qed.
Lemma reps_sound : forall a b m (R : list comp -> caps -> Prop) q, q_ok q ->
  (forall v s s' r, m_match m v s = (s', r) -> frame a b s s' /\ (r = true -> exists g, R v g /\ agree s' g /\ inside a b g)) ->
  forall w s s' r, m_match (MRep m (fst (q_pair q)) (snd (q_pair q))) w s = (s', r) ->
  frame a b s s' /\ (r = true -> exists g, reps_caps q R w g /\ agree s' g /\ inside a b g).
Proof.
  intros a b m R q Hq Hm w s s' r. cbn [RegexModel.m_match]. pose proof (q_pair_ok q Hq) as (Q1 & Q2 & Q3).
  assert (Zero : fst (q_pair q) <= 0 -> w = [] -> exists g, reps_caps q R w g /\ agree s g /\ inside a b g).
  { intros H0 ->. exists []. split; [|split; intros j v []]. exists []. split; [reflexivity|]. split; [apply within_pair; [exact Hq|]; cbn [length]; lia|]. split; [constructor|reflexivity]. }
  destruct ((fst (q_pair q) =? 0) && (zlen w =? 0)) eqn:E.
  - intros [= <- <-]. split; [apply frame_refl|]. intros _. apply andb_true_iff in E. destruct E as [E1 E2]. apply Zero; [lia|apply zlen0; exact E2].
  - intros X. destruct (rec2_sound a b _ R _ _ Hm _ _ _ _ _ _ X) as [F Y]. split; [exact F|]. intros Hr. destruct (Y Hr) as [(E' & -> & Hn)|(ws & v & g & Ew & Fw & Rv & Av & Iv & Hb)]; [apply Zero; assumption|].
    exists g. split; [|auto]. exists (ws ++ [v]). split; [exact Ew|]. split; [apply within_pair; [exact Hq|]; rewrite app_length; cbn [length]; unfold zlen in Hb; lia|].
    split; [apply Forall_app; split; [exact Fw|constructor; [exists g; exact Rv|constructor]]|]. rewrite rev_app_distr. exact Rv.
Qed.
(** lists and groups *)
Definition item_sound (i : item) : Prop := forall k w s s' r, m_match (tr_item k i) w s = (s', r) ->
  frame k (k + nrefs_item i) s s' /\ (r = true -> exists g, caps_item k i w g /\ agree s' g /\ inside k (k + nrefs_item i) g).
Lemma nrefs_cons : forall i e, nrefs (i :: e) = (nrefs_item i + nrefs e)%nat.
Proof. reflexivity. Qed.
Lemma list_sound : forall e, Forall item_sound e -> forall k w s s' r, l_match (tr k e) w s = (s', r) ->
  frame k (k + nrefs e) s s' /\ (r = true -> exists g, caps_of k e w g /\ agree s' g /\ inside k (k + nrefs e) g).
Proof.
  induction e as [|i e IH]; intros He k w s s' r; cbn [tr RegexModel.l_match].
  - intros [= <- <-]. split; [apply frame_refl|]. intros E. apply zlen0 in E. exists []. split; [split; [exact E|reflexivity]|]. split; intros j v [].
  - inversion He as [|? ? Hi He']; subst. specialize (IH He'). intros X. rewrite nrefs_cons. eapply (try_from_sound k (k + (nrefs_item i + nrefs e))) in X.
    2:{ intros t s1 s2 r' _. destruct (m_match (tr_item k i) (firstn t w) s1) as [s3 [|]] eqn:Ei; destruct (Hi _ _ _ _ _ Ei) as [F _].
        - intros Y. destruct (IH _ _ _ _ _ Y) as [F2 _]. eapply frame_trans; (eapply frame_sub; [| |eassumption]; lia).
        - intros [= <- <-]. eapply frame_sub; [| |exact F]; lia. }
    destruct X as [F X]. split; [exact F|]. intros Hr. destruct (X Hr) as (t & s0 & Ht & F0 & Y). destruct (m_match (tr_item k i) (firstn t w) s0) as [s3 [|]] eqn:Ei; [|discriminate Y].
    destruct (Hi _ _ _ _ _ Ei) as [F1 Hg]. destruct (Hg eq_refl) as (g1 & R1 & A1 & I1). destruct (IH _ _ _ _ _ Y) as [F2 Hg2]. destruct (Hg2 eq_refl) as (g2 & R2 & A2 & I2).
    exists (g1 ++ g2). split; [|split].
    + cbn [RegexSpec.caps_of]. exists (firstn t w), (skipn t w), g1, g2. split; [symmetry; apply firstn_skipn|]. auto.
    + assert (A1' : agree s' g1) by (eapply (agree_frame k (k + nrefs_item i)); [exact I1|exact A1|]; intros j Hj; apply F2; lia). intros j v I. apply in_app_or in I. destruct I as [I|I]; [apply A1'|apply A2]; exact I.
    + intros j v I. apply in_app_or in I. destruct I as [I|I]; [apply I1 in I|apply I2 in I]; lia.
Qed.
Lemma group_sound : forall l, Forall item_sound l -> forall k w s s' r, m_match (MGroup k (tr (S k) l)) w s = (s', r) ->
  frame k (k + S (nrefs l)) s s' /\ (r = true -> exists g, (exists g', g = (k, w) :: g' /\ caps_of (S k) l w g') /\ agree s' g /\ inside k (k + S (nrefs l)) g).
Proof.
  intros l Hl k w s s' r. rewrite m_group. destruct (try_from _ (length w) (set_ref s k [])) as [s1 r1] eqn:E. eapply (try_from_sound k (k + S (nrefs l))) in E.
  2:{ intros t s2 s3 r' _. destruct (l_match (tr (S k) l) (firstn t w) s2) as [s4 [|]] eqn:El; destruct (list_sound l Hl _ _ _ _ _ El) as [F _]; intros [= <- <-]; (eapply frame_sub; [| |exact F]; lia). }
  destruct E as [F X]. assert (F0 : frame k (k + S (nrefs l)) s (set_ref s k [])) by (apply frame_set; lia).
  destruct r1; intros [= <- <-].
  - split; [eapply frame_trans; [eapply frame_trans; [exact F0|exact F]|apply frame_set; lia]|]. intros _. destruct (X eq_refl) as (t & s0 & Ht & _ & Y). destruct (l_match (tr (S k) l) (firstn t w) s0) as [s4 [|]] eqn:El; [|discriminate Y].
    injection Y as -> Ez. destruct (list_sound l Hl _ _ _ _ _ El) as [F4 Hg]. destruct (Hg eq_refl) as (g & Cg & Ag & Ig). unfold zlen in Ez. assert (t = length w) by lia. subst t. rewrite firstn_all in Cg.
    exists ((k, w) :: g). split; [exists g; auto|]. split.
    + intros j v [[= <- <-]|I]; [unfold set_ref; rewrite Nat.eqb_refl; reflexivity|]. unfold set_ref. specialize (Ig _ _ I). destruct (Nat.eqb_spec j k); [lia|]. apply Ag. exact I.
    + intros j v [[= <- <-]|I]; [lia|]. specialize (Ig _ _ I). lia.
  - split; [eapply frame_trans; eassumption|discriminate].
Qed.
Lemma one_within : within QOne 1.
Proof. split; cbn; lia. Qed.
Lemma reps_one : forall (R : list comp -> caps -> Prop) w g, R w g -> reps_caps QOne R w g.
Proof. intros R w g H. exists [w]. cbn [concat]. rewrite app_nil_r. split; [reflexivity|]. split; [exact one_within|]. split; [constructor; [exists g; exact H|constructor]|exact H]. Qed.
Lemma items_sound : forall i, wf_item i -> item_sound i.
Proof.
  induction i as [t q|neg ts q|l q IH] using item_ind2; intros W k w s s' r.
  - destruct W as [Wt Wq]. cbn [tr_item]. intros X. eapply reps_sound in X; [exact X|exact Wq|]. intros v s1 s2 r' Y. replace true with (negb false) in Y by reflexivity. apply member_sound in Y. replace (list_sum (map groups [t])) with (nrefs_item (One t q)) in Y by (cbn; rewrite Nat.add_0_r; reflexivity). exact Y.
  - destruct W as (Wt & _ & Wq). cbn [tr_item]. intros X. eapply reps_sound in X; [exact X|exact Wq|]. intros v s1 s2 r' Y. apply member_sound in Y. exact Y.
  - apply wf_group in W. destruct W as (Wl & _ & Wq). assert (Hl : Forall item_sound l).
    { apply Forall_forall. intros i Ii. rewrite Forall_forall in IH. unfold RegexSpec.wf in Wl. rewrite Forall_forall in Wl. apply IH; [exact Ii|apply Wl; exact Ii]. }
    rewrite tr_group, nrefs_group. intros X. pose proof (group_sound l Hl k) as G.
    assert (Y : match q with QOne => m_match (MGroup k (tr (S k) l)) w s = (s', r) | _ => m_match (MRep (MGroup k (tr (S k) l)) (fst (q_pair q)) (snd (q_pair q))) w s = (s', r) end) by (destruct q; exact X).
    assert (Z : q = QOne \/ m_match (MRep (MGroup k (tr (S k) l)) (fst (q_pair q)) (snd (q_pair q))) w s = (s', r)) by (destruct q; auto).
    destruct Z as [->|Z].
    + destruct (G _ _ _ _ X) as [F Hg]. split; [exact F|]. intros Hr. destruct (Hg Hr) as (g & Cg & Ag & Ig). exists g. split; [rewrite caps_group; apply reps_one; exact Cg|auto].
    + eapply reps_sound in Z; [exact Z|exact Wq|]. exact G.
Qed.
Lemma expr_sound : forall e k w s s' r, wf e -> l_match (tr k e) w s = (s', r) ->
  frame k (k + nrefs e) s s' /\ (r = true -> exists g, caps_of k e w g /\ agree s' g /\ inside k (k + nrefs e) g).
Proof. intros e k w s s' r W. apply list_sound. unfold RegexSpec.wf in W. rewrite Forall_forall in *. intros i Ii. apply items_sound, W. exact Ii. Qed.

(** captures are matches *)
Lemma set_caps_found : forall ts k c, (exists g, set_caps re_groups re_search k ts c = Some g) <-> Exists (fun t => found t c) ts.
Proof.
  induction ts as [|t ts IH]; intros k c; cbn [set_caps].
  - split; [intros [g X]; discriminate X|intros X; inversion X].
  - destruct t as [|x t0] eqn:Et.
    + split; [intros _; left; left; reflexivity|]. intros _. eexists. reflexivity.
    + rewrite <- Et in *. destruct (re_search t (c_toEscapedString c)) as [g|] eqn:Eg.
      * split; [intros _; left; right; congruence|]. intros _. eexists. reflexivity.
      * rewrite IH. split; [intros X; right; exact X|]. intros X. inversion X as [? ? [Y|Y]|]; subst; [discriminate Y|congruence|assumption].
Qed.
Lemma member_lang : forall k neg ts w g, member_caps re_groups re_search k neg ts w g -> member re_search neg ts w.
Proof.
  intros k neg ts w g (c & -> & H). exists c. split; [reflexivity|]. pose proof (set_caps_found ts k c) as F. destruct (set_caps re_groups re_search k ts c) as [g'|].
  - destruct H as [-> _]. apply F. eexists. reflexivity.
  - destruct H as [-> _]. intros X. apply F in X. destruct X as [x X]. discriminate X.
Qed.
Lemma reps_lang : forall q (R : list comp -> caps -> Prop) (P : list comp -> Prop) w g, (forall v g, R v g -> P v) -> reps_caps q R w g -> reps q P w.
Proof. intros q R P w g H (ws & E & Wq & F & _). exists ws. split; [exact E|]. split; [|exact Wq]. eapply Forall_impl; [|exact F]. intros v [g' X]. eapply H. exact X. Qed.
Lemma caps_lang : forall e k w g, caps_of k e w g -> lang e w.
Proof.
  assert (L : forall e, Forall (fun i => forall k w g, caps_item k i w g -> lang_item i w) e -> forall k w g, caps_of k e w g -> lang e w).
  { induction e as [|i e IH]; intros He k w g; cbn [RegexSpec.caps_of RegexSpec.lang]; [tauto|]. inversion He; subst. intros (u & v & s1 & s2 & -> & -> & A & B). exists u, v. split; [reflexivity|]. split; [eauto|]. eapply IH; eassumption. }
  intros e. apply L. apply Forall_forall. intros i _. induction i as [t q|neg ts q|l q IH] using item_ind2; intros k w g.
  - apply reps_lang. apply member_lang.
  - apply reps_lang. apply member_lang.
  - rewrite caps_group, lang_group. apply reps_lang. intros v g' (g'' & _ & X). eapply L; eassumption.
Qed.

(** ** Completeness *)
Lemma rec2_complete : forall (inner : list comp -> refs -> refs * bool) mn mx us rp n s, us <> [] -> last us [] <> [] ->
  Forall (fun v => forall s, snd (inner v s) = true) us -> mn <= rp + zlen us <= mx -> n = Z.to_nat (mx - rp) ->
  snd (recursiveMatch2 inner mn mx n rp (concat us) s) = true.
Proof.
  intros inner mn mx. induction us as [|v us IH]; intros rp n s Hne Hl Hf Hb Hn; [congruence|]. inversion Hf as [|? ? Hv Hf']; subst. rewrite zlen_cons in Hb. pose proof (zlen_nonneg _ us) as Lu.
  assert (Lc : 0 < zlen (concat (v :: us))).
  { clear - Hl. assert (X : forall l : list (list comp), last l [] <> [] -> 0 < zlen (concat l)).
    { induction l as [|x l IH]; [cbn; congruence|]. intros H. cbn [concat]. rewrite zlen_app. pose proof (zlen_nonneg _ x). destruct l as [|y l]; [cbn in H; cbn [concat]; rewrite zlen_nil; destruct x as [|z x]; [congruence|]; rewrite zlen_cons; pose proof (zlen_nonneg _ x); lia|]. specialize (IH H). lia. }
    apply X. exact Hl. }
  assert (En : Z.to_nat (mx - rp) = S (Z.to_nat (mx - (rp + 1)))) by lia. rewrite En. cbn [recursiveMatch2].
  replace (mx <=? rp) with false by lia. rewrite andb_false_r. replace (zlen (concat (v :: us)) =? 0) with false by lia. cbn [andb].
  apply (try_from_complete _ _ (length v)).
  - cbn [concat]. rewrite app_length. lia.
  - intros s0. cbn [concat]. assert (E1 : firstn (length v) (v ++ concat us) = v) by (rewrite firstn_app, firstn_all, Nat.sub_diag; cbn; apply app_nil_r). assert (E2 : skipn (length v) (v ++ concat us) = concat us) by (rewrite skipn_app, skipn_all, Nat.sub_diag; reflexivity). rewrite E1, E2.
    specialize (Hv s0). destruct (inner v s0) as [s1 [|]]; [|discriminate Hv]. destruct us as [|v' us].
    + cbn [concat]. rewrite zlen_nil in Hb. destruct (Z.to_nat (mx - (rp + 1))); cbn [recursiveMatch2]; rewrite zlen_nil; cbn [Z.ltb Z.eqb andb]; replace (rp + 1 <? mn) with false by lia; replace (mn <=? rp + 1) with true by lia; reflexivity.
    + apply IH; auto; [congruence|lia].
Qed.
Lemma forall_repeat : forall A (P : A -> Prop) x n, P x -> Forall P (repeat x n).
Proof. intros A P x n H. induction n; cbn; constructor; auto. Qed.
Lemma concat_nonempty : forall (ws : list (list comp)), exists vs, concat vs = concat ws /\ (length vs <= length ws)%nat /\ (forall v, In v vs -> In v ws /\ v <> []) /\ (length vs = length ws \/ In [] ws).
Proof.
  induction ws as [|w ws (vs & E & L & I & D)]; [exists []; repeat split; auto; intros v []|]. destruct w as [|c w].
  - exists vs. cbn [concat length app]. split; [exact E|]. split; [lia|]. split; [|right; left; reflexivity]. intros v Hv. destruct (I v Hv). split; [right; assumption|assumption].
  - exists ((c :: w) :: vs). cbn [concat length]. split; [rewrite E; reflexivity|]. split; [lia|]. split; [intros v [<-|Hv]; [split; [left; reflexivity|discriminate]|destruct (I v Hv); split; [right; assumption|assumption]]|]. destruct D as [D|D]; [left; lia|right; right; exact D].
Qed.
Lemma len_concat : forall (vs : list (list comp)), (forall v, In v vs -> v <> []) -> (length vs <= length (concat vs))%nat.
Proof.
  induction vs as [|v vs IH]; intros H; cbn; [lia|]. rewrite app_length. assert (v <> []) by (apply H; left; reflexivity). destruct v; [congruence|]. cbn [length]. specialize (IH (fun v' I => H v' (or_intror I))). lia.
Qed.
Lemma last_in : forall A (l : list A) d, l <> [] -> In (last l d) l.
Proof. intros A l d. induction l as [|x l IH]; [congruence|]. intros _. destruct l as [|y l]; [left; reflexivity|]. right. apply IH. discriminate. Qed.
Lemma last_app : forall A (a b : list A) d, b <> [] -> last (a ++ b) d = last b d.
Proof. intros A a b d H. induction a as [|x a IH]; [reflexivity|]. cbn [app]. destruct (a ++ b) eqn:E; [destruct a; [cbn in E; congruence|discriminate E]|]. rewrite <- IH. reflexivity. Qed.
Lemma reps_complete : forall m q (P : list comp -> Prop) w, q_ok q -> (q_min q = 0 \/ ~ P []) -> zlen w <= 32767 -> (forall v, zlen v <= zlen w -> P v -> forall s, snd (m_match m v s) = true) ->
  reps q P w -> forall s, snd (m_match (MRep m (fst (q_pair q)) (snd (q_pair q))) w s) = true.
Proof.
  intros m q P w Hq Hs Lw Hm (ws & -> & Hf & Hw) s. cbn [RegexModel.m_match]. pose proof (q_pair_ok q Hq) as (Q1 & Q2 & Q3). destruct (concat_nonempty ws) as (vs & Ev & Lv & Iv & Dv). rewrite Forall_forall in Hf.
  assert (Lp : forall v, In v ws -> zlen v <= zlen (concat ws)).
  { clear. induction ws as [|x ws IH]; intros v; [intros []|]. cbn [concat]. rewrite zlen_app. pose proof (zlen_nonneg _ x). pose proof (zlen_nonneg _ (concat ws)). intros [<-|I]; [lia|]. specialize (IH v I). lia. }
  destruct vs as [|v0 vs0] eqn:Evs.
  - cbn [concat] in Ev. assert (M0 : q_min q = 0).
    { destruct Hs as [Hs|Hs]; [exact Hs|]. destruct Dv as [Dv|Dv]; [|exfalso; apply Hs, Hf; exact Dv]. cbn in Dv. destruct ws; [|discriminate Dv]. destruct Hw as [Hw _]. cbn in Hw. lia. }
    rewrite <- Ev, zlen_nil. unfold q_pair. cbn [fst]. rewrite M0. reflexivity.
  - rewrite <- Evs in *. assert (Vn : vs <> []) by (rewrite Evs; discriminate). clear Evs v0 vs0. assert (Lc : (length vs <= length (concat ws))%nat) by (rewrite <- Ev; apply len_concat; intros v I; apply Iv; exact I).
    assert (Zw : zlen (concat ws) <> 0). { unfold zlen. destruct vs; [congruence|]. cbn [length] in Lc. lia. }
    replace (zlen (concat ws) =? 0) with false by lia. rewrite andb_false_r.
    set (us := repeat [] (Z.to_nat (q_min q) - length vs) ++ vs). assert (Eu : concat us = concat ws).
    { unfold us. rewrite concat_app. replace (concat (repeat [] (Z.to_nat (q_min q) - length vs))) with (@nil comp); [exact Ev|]. generalize (Z.to_nat (q_min q) - length vs)%nat. induction n; cbn; auto. }
    rewrite <- Eu. apply rec2_complete.
    + unfold us. intros X. apply app_eq_nil in X. destruct X. congruence.
    + unfold us. rewrite last_app by exact Vn. apply (Iv (last vs [])). apply last_in. exact Vn.
    + unfold us. apply Forall_app. split.
      * destruct (Z.to_nat (q_min q) - length vs)%nat as [|n] eqn:En; [constructor|]. apply forall_repeat. intros s0. apply Hm; [rewrite zlen_nil; apply zlen_nonneg|]. destruct Dv as [Dv|Dv]; [|apply Hf; exact Dv]. exfalso. destruct Hw as [Hw _]. lia.
      * apply Forall_forall. intros v I. intros s0. apply Hm; [apply Lp, Iv; exact I|]. apply Hf, Iv. exact I.
    + unfold us, zlen in *. rewrite app_length, repeat_length. unfold q_pair in *. cbn [fst snd] in *. destruct Hw as [H1 H2]. destruct (q_max q) as [mx|]; lia.
    + lia.
Qed.
Lemma set_match_complete : forall ts k c, (forall s, snd (set_match re_search (tr_cms k ts) c s) = true) \/ (forall s, snd (set_match re_search (tr_cms k ts) c s) = false) /\ ~ Exists (fun t => found t c) ts.
Proof.
  induction ts as [|t ts IH]; intros k c; cbn [tr_cms set_match].
  - right. split; [reflexivity|]. intros X. inversion X.
  - unfold cm_match. cbn [cm_expr cm_ref cm_groups]. destruct t as [|x t0] eqn:Et; [left; reflexivity|]. rewrite <- Et in *. destruct (re_search t (c_toEscapedString c)) as [g|] eqn:Eg; [left; reflexivity|].
    destruct (IH (k + groups t)%nat c) as [A|[A B]]; [left; exact A|]. right. split; [exact A|]. intros X. inversion X as [? ? [Y|Y]|]; subst; [discriminate Y|congruence|contradiction].
Qed.
Lemma set_match_false : forall ts k c s, snd (set_match re_search (tr_cms k ts) c s) = true -> Exists (fun t => found t c) ts.
Proof.
  intros ts k c s H. destruct (set_match re_search (tr_cms k ts) c s) as [s' r] eqn:E. cbn in H. subst r. apply set_match_sound in E. destruct E as [_ E]. apply (set_caps_found ts k c). destruct (set_caps re_groups re_search k ts c) as [g|]; [eexists; reflexivity|discriminate E].
Qed.
Lemma member_complete : forall k neg ts w, member re_search neg ts w -> forall s, snd (m_match (MSet (negb neg) (tr_cms k ts)) w s) = true.
Proof.
  intros k neg ts w (c & -> & H) s. cbn [RegexModel.m_match]. pose proof (set_match_false ts k c s) as Hf. destruct (set_match_complete ts k c) as [A|[A B]]; specialize (A s); destruct (set_match re_search (tr_cms k ts) c s) as [s' r]; cbn [snd] in *; subst r; destruct neg; cbn [negb]; auto; exfalso; auto.
Qed.
Lemma member_nil : forall neg ts, ~ member re_search neg ts [].
Proof. intros neg ts (c & X & _). discriminate X. Qed.
Definition item_complete (i : item) : Prop := forall k w, zlen w <= 32767 -> lang_item i w -> forall s, snd (m_match (tr_item k i) w s) = true.
Lemma list_complete : forall e, Forall item_complete e -> forall k w, zlen w <= 32767 -> lang e w -> forall s, snd (l_match (tr k e) w s) = true.
Proof.
  induction e as [|i e IH]; intros He k w Lw; cbn [RegexSpec.lang tr RegexModel.l_match].
  - intros -> s. reflexivity.
  - inversion He as [|? ? Hi He']; subst. intros (u & v & -> & Hu & Hv) s. rewrite zlen_app in Lw. pose proof (zlen_nonneg _ u). pose proof (zlen_nonneg _ v). apply (try_from_complete _ _ (length u)); [rewrite app_length; lia|]. intros s0.
    rewrite firstn_app, firstn_all, Nat.sub_diag, skipn_app, skipn_all, Nat.sub_diag. cbn [firstn skipn app]. rewrite app_nil_r. specialize (Hi k u ltac:(lia) Hu s0). destruct (m_match (tr_item k i) u s0) as [s1 [|]]; [|discriminate Hi]. apply IH; [exact He'|lia|exact Hv].
Qed.
Lemma group_complete : forall l, Forall item_complete l -> forall k w, zlen w <= 32767 -> lang l w -> forall s, snd (m_match (MGroup k (tr (S k) l)) w s) = true.
Proof.
  intros l Hl k w Lw H s. rewrite m_group. assert (X : snd (try_from (fun tried s => match l_match (tr (S k) l) (firstn tried w) s with (s', true) => (s', zlen w - Z.of_nat tried =? 0) | (s', false) => (s', false) end) (length w) (set_ref s k [])) = true).
  { apply (try_from_complete _ _ (length w)); [lia|]. intros s0. rewrite firstn_all. pose proof (list_complete l Hl (S k) w Lw H s0) as Y. destruct (l_match (tr (S k) l) w s0) as [s1 [|]]; [|discriminate Y]. cbn [snd]. unfold zlen. lia. }
  destruct (try_from _ (length w) (set_ref s k [])) as [s1 [|]]; [reflexivity|discriminate X].
Qed.
Lemma reps_one_inv : forall P w, reps QOne P w -> P w.
Proof. intros P w (ws & -> & F & [H1 H2]). cbn in H1, H2. destruct ws as [|v [|v' ws]]; cbn [length] in *; [lia| |lia]. inversion F; subst. cbn [concat]. rewrite app_nil_r. assumption. Qed.
Lemma items_complete : forall i, wf_item i -> strict_item i -> item_complete i.
Proof.
  induction i as [t q|neg ts q|l q IH] using item_ind2; intros W St k w Lw H s.
  - destruct W as [Wt Wq]. cbn [tr_item]. eapply (reps_complete _ q (member re_search false [t])); [exact Wq|right; apply member_nil|exact Lw| |exact H]. intros v _ Hv. apply (member_complete k false [t] v Hv).
  - destruct W as (Wt & _ & Wq). cbn [tr_item]. eapply (reps_complete _ q (member re_search neg ts)); [exact Wq|right; apply member_nil|exact Lw| |exact H]. intros v _ Hv. apply (member_complete k neg ts v Hv).
  - apply wf_group in W. destruct W as (Wl & _ & Wq). apply strict_group in St. destruct St as [Sl Sq]. assert (Hl : Forall item_complete l).
    { apply Forall_forall. intros i Ii. unfold RegexSpec.wf, RegexSpec.strict in *. rewrite Forall_forall in *. apply IH; auto. }
    rewrite tr_group. rewrite lang_group in H. pose proof (group_complete l Hl k) as G.
    assert (Z : q = QOne \/ forall s, snd (m_match (MRep (MGroup k (tr (S k) l)) (fst (q_pair q)) (snd (q_pair q))) w s) = true).
    { destruct Sq as [Sq|Sq]; [left; exact Sq|right]. apply (reps_complete _ q (lang l)); auto. intros v Lv. apply G. lia. }
    destruct Z as [->|Z]; [apply G; [exact Lw|apply reps_one_inv; exact H]|]. destruct q; try apply Z. apply G; [exact Lw|apply reps_one_inv; exact H].
Qed.
Lemma expr_complete : forall e k w s, wf e -> strict e -> zlen w <= 32767 -> lang e w -> snd (l_match (tr k e) w s) = true.
Proof. intros e k w s W St Lw H. apply list_complete; [|exact Lw|exact H]. unfold RegexSpec.wf, RegexSpec.strict in *. rewrite Forall_forall in *. intros i Ii. apply items_complete; auto. Qed.
End P.
