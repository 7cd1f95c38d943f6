(** * Tables: what the statements do to lookups and defaults *)
From Verif Require Import Base BaseLemmas SqlModel.

Definition look (t : table) (n : bytes) : option (Z * Z * bytes) := match find (named n) t with Some r => Some (r_id r, r_scope r, r_data r) | None => None end.
Definition dflt (t : table) (s : Z) : option bytes := match find (default_of s) t with Some r => Some (r_name r) | None => None end.
Record Wf (t : table) : Prop := MkWf {
  w_id : NoDup (map r_id t); w_name : NoDup (map r_name t);
  w_def : forall r r', In r t -> In r' t -> r_def r = true -> r_def r' = true -> r_scope r = r_scope r' -> r = r' }.
Lemma eqb_refl_l : forall l, zlist_eqb l l = true.
Proof. intros l. apply zlist_eqb_eq. reflexivity. Qed.
Lemma eqb_spec_l : forall a b, reflect (a = b) (zlist_eqb a b).
Proof. intros a b. destruct (zlist_eqb a b) eqn:E; constructor; [apply zlist_eqb_eq, E|]. intros ->. rewrite eqb_refl_l in E. discriminate. Qed.
Lemma eqb_sym_l : forall a b, zlist_eqb a b = zlist_eqb b a.
Proof. intros a b. destruct (eqb_spec_l a b), (eqb_spec_l b a); congruence. Qed.
Lemma opt_ext : forall A (a b : option A), (forall x, a = Some x <-> b = Some x) -> a = b.
Proof. intros A [x|] [y|] H; try reflexivity. - apply H. reflexivity. - symmetry. apply H. reflexivity. - apply H. reflexivity. Qed.
Lemma nodup_map : forall A B (f : A -> B) l x y, NoDup (map f l) -> In x l -> In y l -> f x = f y -> x = y.
Proof.
  intros A B f. induction l as [|z l IH]; intros x y H Ix Iy E; [destruct Ix|]. inversion H as [|? ? N1 N2]; subst.
  destruct Ix as [<-|Ix], Iy as [<-|Iy]; auto; exfalso; apply N1; [rewrite E|rewrite <- E]; apply in_map; assumption.
Qed.
Lemma look_in : forall t n i s b, Wf t -> (look t n = Some (i, s, b) <-> exists df, In (Row i s n b df) t).
Proof.
  intros t n i s b W. unfold look. split.
  - destruct (find (named n) t) as [r|] eqn:E; [|discriminate]. intros [= <- <- <-]. apply find_some in E. destruct E as [I E]. apply zlist_eqb_eq in E. exists (r_def r). subst n. destruct r. exact I.
  - intros [df I]. destruct (find (named n) t) as [r|] eqn:E.
    + apply find_some in E. destruct E as [I' E]. apply zlist_eqb_eq in E. assert (r = Row i s n b df) by (eapply nodup_map; [apply (w_name t W)|assumption|assumption|exact E]). subst r. reflexivity.
    + exfalso. pose proof (find_none _ _ E _ I) as X. unfold named in X. cbn in X. rewrite eqb_refl_l in X. discriminate.
Qed.
Lemma look_row : forall t r, Wf t -> In r t -> look t (r_name r) = Some (r_id r, r_scope r, r_data r).
Proof. intros t r W I. apply look_in; [exact W|]. exists (r_def r). destruct r. exact I. Qed.
Lemma look_none : forall t n, look t n = None <-> forall r, In r t -> r_name r <> n.
Proof.
  intros t n. unfold look. split.
  - destruct (find (named n) t) as [r|] eqn:E; [discriminate|]. intros _ r I <-. pose proof (find_none _ _ E _ I) as X. unfold named in X. rewrite eqb_refl_l in X. discriminate.
  - intros H. destruct (find (named n) t) as [r|] eqn:E; [|reflexivity]. apply find_some in E. destruct E as [I E]. apply zlist_eqb_eq in E. destruct (H r I E).
Qed.
Lemma dflt_in : forall t s n, Wf t -> (dflt t s = Some n <-> exists i b, In (Row i s n b true) t).
Proof.
  intros t s n W. unfold dflt. split.
  - destruct (find (default_of s) t) as [r|] eqn:E; [|discriminate]. intros [= <-]. apply find_some in E. destruct E as [I E]. unfold default_of in E. apply andb_true_iff in E. destruct E as [E1 E2]. apply Z.eqb_eq in E2. exists (r_id r), (r_data r). subst s. destruct r. cbn in *. subst. exact I.
  - intros (i & b & I). destruct (find (default_of s) t) as [r|] eqn:E.
    + apply find_some in E. destruct E as [I' E]. unfold default_of in E. apply andb_true_iff in E. destruct E as [E1 E2]. apply Z.eqb_eq in E2. assert (r = Row i s n b true) by (apply (w_def t W); auto). subst r. reflexivity.
    + exfalso. pose proof (find_none _ _ E _ I) as X. unfold default_of in X. cbn in X. rewrite Z.eqb_refl in X. discriminate.
Qed.
Lemma look_ext : forall t t', (forall n i s b, look t n = Some (i, s, b) <-> look t' n = Some (i, s, b)) -> forall n, look t n = look t' n.
Proof. intros t t' H n. apply opt_ext. intros [[i s] b]. apply H. Qed.
Lemma wf_nil : Wf [].
Proof. constructor; [constructor|constructor|]. intros r r' []. Qed.

Lemma nodup_snoc : forall A (l : list A) x, NoDup l -> ~ In x l -> NoDup (l ++ [x]).
Proof. intros A l x N I. apply NoDup_rev in N. rewrite <- (rev_involutive (l ++ [x])). apply NoDup_rev. rewrite rev_app_distr. cbn. constructor; [rewrite <- in_rev; exact I|exact N]. Qed.
(** a change of columns other than id, scope and name *)
Lemma look_map : forall f t n, (forall r, r_id (f r) = r_id r /\ r_scope (f r) = r_scope r /\ r_name (f r) = r_name r /\ r_data (f r) = r_data r) -> look (map f t) n = look t n.
Proof.
  intros f t n H. unfold look. induction t as [|r t IH]; [reflexivity|]. cbn [map find]. destruct (H r) as (H1 & H2 & H3 & H4). unfold named at 1 3. rewrite H3. destruct (zlist_eqb (r_name r) n); [rewrite H1, H2, H4; reflexivity|exact IH].
Qed.
Lemma map_map_id : forall A B (g : A -> B) f l, (forall r, g (f r) = g r) -> map g (map f l) = map g l.
Proof. intros A B g f l H. rewrite map_map. apply map_ext, H. Qed.

(** ** is_default *)
Definition marked (x r : row) : row := if r_id r =? r_id x then with_def true r else if r_scope r =? r_scope x then with_def false r else r.
Lemma mark_row_eq : forall t x, Wf t -> In x t -> mark_row t x = map (marked x) t.
Proof.
  intros t x W Ix. unfold mark_row. destruct (r_def x) eqn:D.
  - apply map_ext_in. intros r I. unfold marked. destruct (Z.eqb_spec (r_id r) (r_id x)); [reflexivity|]. destruct (Z.eqb_spec (r_scope r) (r_scope x)) as [E|E]; [|reflexivity].
    destruct (r_def r) eqn:Dr; [|destruct r; cbn in *; subst; reflexivity]. exfalso. apply n. f_equal. apply (w_def t W); auto.
  - rewrite map_map. apply map_ext. intros r. unfold marked. destruct (Z.eqb_spec (r_scope r) (r_scope x)) as [E|E]; cbn [with_def r_id]; destruct (r_id r =? r_id x); reflexivity.
Qed.
Lemma marked_same : forall x r, r_id (marked x r) = r_id r /\ r_scope (marked x r) = r_scope r /\ r_name (marked x r) = r_name r /\ r_data (marked x r) = r_data r.
Proof. intros x r. unfold marked. destruct (r_id r =? r_id x); [cbn; auto|]. destruct (r_scope r =? r_scope x); cbn; auto. Qed.
Lemma wf_marked : forall t x, Wf t -> In x t -> Wf (map (marked x) t).
Proof.
  intros t x W Ix. constructor.
  - rewrite map_map_id; [apply W|apply marked_same].
  - rewrite map_map_id; [apply W|apply marked_same].
  - assert (K : forall r, r_def (marked x r) = true -> r_scope r = r_scope x -> In r t -> r = x).
    { intros r D E I. unfold marked in D. destruct (Z.eqb_spec (r_id r) (r_id x)) as [Ei|Ei]; [eapply nodup_map; [apply (w_id t W)|assumption|assumption|exact Ei]|]. rewrite E, Z.eqb_refl in D. discriminate D. }
    assert (U : forall r, In r t -> r_scope r <> r_scope x -> marked x r = r).
    { intros r I E. unfold marked. destruct (Z.eqb_spec (r_id r) (r_id x)) as [Ei|Ei]; [exfalso; apply E; f_equal; eapply nodup_map; [apply (w_id t W)|assumption|assumption|exact Ei]|]. destruct (Z.eqb_spec (r_scope r) (r_scope x)); [congruence|reflexivity]. }
    intros r r' I I' D D' E. apply in_map_iff in I, I'. destruct I as (a & <- & I), I' as (a' & <- & I'). f_equal. destruct (marked_same x a) as (_ & S1 & _), (marked_same x a') as (_ & S2 & _). rewrite S1, S2 in E.
    destruct (Z.eq_dec (r_scope a) (r_scope x)) as [Ea|Ea].
    + rewrite (K a D Ea I), (K a' D' (eq_trans (eq_sym E) Ea) I'). reflexivity.
    + rewrite (U a I Ea) in D. rewrite (U a' I') in D' by congruence. apply (w_def t W); auto.
Qed.
Lemma filter_named : forall t n, Wf t -> filter (named n) t = match find (named n) t with Some r => [r] | None => [] end.
Proof.
  intros t n W. destruct W as [_ Nn _]. induction t as [|r t IH]; [reflexivity|]. cbn [map] in Nn. inversion Nn as [|? ? N1 N2]; subst. cbn [filter find]. destruct (named n r) eqn:E; [|apply IH, N2].
  f_equal. apply zlist_eqb_eq in E. destruct (filter (named n) t) as [|r' l] eqn:F; [reflexivity|]. exfalso. assert (I : In r' (filter (named n) t)) by (rewrite F; left; reflexivity). apply filter_In in I. destruct I as [I E']. apply zlist_eqb_eq in E'. apply N1. rewrite E, <- E'. apply in_map, I.
Qed.
(** UPDATE SET is_default=1 *)
Lemma t_mark_ok : forall t n, Wf t -> Wf (t_mark t n) /\ (forall m, look (t_mark t n) m = look t m) /\ map r_name (t_mark t n) = map r_name t /\ map r_id (t_mark t n) = map r_id t /\
  (forall s, dflt (t_mark t n) s = match look t n with Some (_, s', _) => if s' =? s then Some n else dflt t s | None => dflt t s end).
Proof.
  intros t n W. unfold t_mark. rewrite (filter_named t n W). unfold look at 3. destruct (find (named n) t) as [x|] eqn:F; cbn [fold_left].
  - apply find_some in F. destruct F as [Ix En]. apply zlist_eqb_eq in En. subst n. rewrite (mark_row_eq t x W Ix). pose proof (wf_marked t x W Ix) as W'. split; [exact W'|]. split; [intros m; apply look_map, marked_same|]. split; [apply map_map_id, marked_same|]. split; [apply map_map_id, marked_same|].
    intros s. apply opt_ext. intros m. rewrite (dflt_in _ _ _ W'). destruct (Z.eqb_spec (r_scope x) s) as [E|E].
    + split.
      * intros (i & b & I). apply in_map_iff in I. destruct I as (r & Er & I). f_equal. unfold marked in Er. destruct (Z.eqb_spec (r_id r) (r_id x)) as [Ei|Ei].
        -- assert (r = x) by (eapply nodup_map; [apply (w_id t W)|assumption|assumption|exact Ei]). subst r. destruct x. injection Er as _ _ <- _. reflexivity.
        -- exfalso. destruct (Z.eqb_spec (r_scope r) (r_scope x)) as [Es|Es]; [discriminate Er|]. subst r. cbn in Es. congruence.
      * intros [= <-]. exists (r_id x), (r_data x). apply in_map_iff. exists x. split; [|exact Ix]. unfold marked. rewrite Z.eqb_refl, <- E. destruct x. reflexivity.
    + rewrite (dflt_in _ _ _ W). split.
      * intros (i & b & I). apply in_map_iff in I. destruct I as (r & Er & I). unfold marked in Er. destruct (Z.eqb_spec (r_id r) (r_id x)) as [Ei|Ei].
        -- exfalso. assert (r = x) by (eapply nodup_map; [apply (w_id t W)|assumption|assumption|exact Ei]). subst r. destruct x. injection Er as _ Es _ _. cbn in E. congruence.
        -- destruct (Z.eqb_spec (r_scope r) (r_scope x)) as [Es|Es]; [discriminate Er|]. subst r. eauto.
      * intros (i & b & I). exists i, b. apply in_map_iff. exists (Row i s m b true). split; [|exact I]. unfold marked. cbn [r_id r_scope]. destruct (Z.eqb_spec i (r_id x)) as [Ei|Ei].
        -- exfalso. apply E. assert (Row i s m b true = x) by (eapply nodup_map; [apply (w_id t W)|assumption|assumption|exact Ei]). subst x. reflexivity.
        -- destruct (Z.eqb_spec s (r_scope x)); [congruence|reflexivity].
  - repeat (split; [first [exact W|reflexivity]|]). reflexivity.
Qed.
(** ** INSERT *)
Lemma new_id_fresh : forall t r, In r t -> r_id r < new_id t.
Proof.
  intros t r I. unfold new_id. apply Z.lt_succ_r. induction t as [|x t IH]; [destruct I|]. cbn [map fold_right]. destruct I as [-> |I]; [apply Z.le_max_l|]. etransitivity; [apply IH, I|apply Z.le_max_r].
Qed.
Lemma t_insert_ok : forall t s n data, Wf t -> look t n = None -> exists t', t_insert t s n data = Some t' /\ Wf t' /\
  (forall m, look t' m = if zlist_eqb n m then Some (new_id t, s, data) else look t m) /\
  map r_name t' = map r_name t ++ [n] /\ map r_id t' = map r_id t ++ [new_id t] /\
  (forall s', dflt t' s' = match dflt t s' with Some d => Some d | None => if s =? s' then Some n else None end).
Proof.
  intros t s n data W L. unfold t_insert. assert (E : existsb (named n) t = false).
  { destruct (existsb (named n) t) eqn:E; [|reflexivity]. apply existsb_exists in E. destruct E as (r & I & E). apply zlist_eqb_eq in E. destruct (proj1 (look_none t n) L r I E). }
  rewrite E. set (x := Row (new_id t) s n data false). set (t1 := t ++ [x]). eexists. split; [reflexivity|].
  assert (W1 : Wf t1).
  { unfold t1. constructor.
    - rewrite map_app. cbn [map x r_id]. apply nodup_snoc; [apply W|]. intros I. apply in_map_iff in I. destruct I as (r & Er & I). pose proof (new_id_fresh t r I). cbn in Er. lia.
    - rewrite map_app. cbn [map x r_name]. apply nodup_snoc; [apply W|]. intros I. apply in_map_iff in I. destruct I as (r & Er & I). destruct (proj1 (look_none t n) L r I Er).
    - intros r r' I I' D D'. apply in_app_or in I, I'. destruct I as [I|[<-|[]]]; [|discriminate D]. destruct I' as [I'|[<-|[]]]; [|discriminate D']. apply (w_def t W); auto. }
  assert (L1 : forall m, look t1 m = if zlist_eqb n m then Some (new_id t, s, data) else look t m).
  { intros m. destruct (eqb_spec_l n m) as [<-|N].
    - apply (look_row t1 x W1). apply in_or_app. right. left. reflexivity.
    - apply opt_ext. intros [[i s'] b]. rewrite (look_in _ _ _ _ _ W1), (look_in _ _ _ _ _ W). split; intros [df I]; exists df.
      + apply in_app_or in I. destruct I as [I|[I|[]]]; [exact I|]. injection I as _ _ I _ _. contradiction.
      + apply in_or_app. left. exact I. }
  assert (D1 : forall s', dflt t1 s' = dflt t s').
  { intros s'. apply opt_ext. intros m. rewrite (dflt_in _ _ _ W1), (dflt_in _ _ _ W). split; intros (i & b & I); exists i, b.
    - apply in_app_or in I. destruct I as [I|[I|[]]]; [exact I|discriminate I].
    - apply in_or_app. left. exact I. }
  assert (Ex : existsb (default_of s) t1 = match dflt t s with Some _ => true | None => false end).
  { rewrite <- D1. unfold dflt. destruct (find (default_of s) t1) as [r|] eqn:F.
    - apply find_some in F. apply existsb_exists. exists r. exact F.
    - destruct (existsb (default_of s) t1) eqn:Ee; [|reflexivity]. apply existsb_exists in Ee. destruct Ee as (r & I & Er). pose proof (find_none _ _ F r I). congruence. }
  assert (N1 : map r_name t1 = map r_name t ++ [n]) by (unfold t1; rewrite map_app; reflexivity). assert (I1 : map r_id t1 = map r_id t ++ [new_id t]) by (unfold t1; rewrite map_app; reflexivity).
  rewrite Ex. destruct (dflt t s) as [d|] eqn:Ed.
  - split; [exact W1|]. split; [exact L1|]. split; [exact N1|]. split; [exact I1|]. intros s'. rewrite D1. destruct (Z.eqb_spec s s') as [<-|N]; [rewrite Ed; reflexivity|]. destruct (dflt t s'); reflexivity.
  - destruct (t_mark_ok t1 n W1) as (W2 & L2 & N2 & I2 & D2). split; [exact W2|]. split; [intros m; rewrite L2; apply L1|]. split; [congruence|]. split; [congruence|]. intros s'. rewrite D2, L1, eqb_refl_l. rewrite !D1. destruct (Z.eqb_spec s s') as [<-|N]; [rewrite Ed; reflexivity|]. destruct (dflt t s'); reflexivity.
Qed.
Lemma t_insert_none : forall t s n data, look t n <> None -> t_insert t s n data = None.
Proof.
  intros t s n data L. unfold t_insert. destruct (existsb (named n) t) eqn:E; [reflexivity|]. exfalso. apply L. apply look_none. intros r I <-. assert (X : existsb (named (r_name r)) t = true) by (apply existsb_exists; exists r; split; [exact I|apply eqb_refl_l]). congruence.
Qed.
(** ** UPDATE of the data *)
Lemma t_update_ok : forall t n data, Wf t -> Wf (t_update t n data) /\ map r_name (t_update t n data) = map r_name t /\ map r_id (t_update t n data) = map r_id t /\
  (forall m, look (t_update t n data) m = match look t m with Some (i, s, b) => Some (i, s, if zlist_eqb n m then data else b) | None => None end) /\
  (forall s, dflt (t_update t n data) s = dflt t s).
Proof.
  intros t n data W. unfold t_update. set (f := fun r => if named n r then Row (r_id r) (r_scope r) (r_name r) data (r_def r) else r).
  assert (F : forall r, r_id (f r) = r_id r /\ r_scope (f r) = r_scope r /\ r_name (f r) = r_name r /\ r_def (f r) = r_def r) by (intros r; unfold f; destruct (named n r); cbn; auto).
  assert (W' : Wf (map f t)).
  { constructor; [rewrite map_map_id; [apply W|apply F]|rewrite map_map_id; [apply W|apply F]|]. intros r r' I I' D D' E. apply in_map_iff in I, I'. destruct I as (a & <- & I), I' as (a' & <- & I'). f_equal. destruct (F a) as (_ & S1 & _ & D1), (F a') as (_ & S2 & _ & D2). apply (w_def t W); congruence. }
  split; [exact W'|]. split; [apply map_map_id, F|]. split; [apply map_map_id, F|]. split.
  - intros m. unfold look. clear W W'. induction t as [|r t IH]; [reflexivity|]. cbn [map find]. destruct (F r) as (F1 & F2 & F3 & _). unfold named at 1 3. rewrite F3. destruct (eqb_spec_l (r_name r) m) as [<-|N]; [|exact IH]. rewrite F1, F2. unfold f, named. rewrite eqb_sym_l. destruct (zlist_eqb (r_name r) n) eqn:E; [rewrite eqb_sym_l, E; reflexivity|rewrite eqb_sym_l, E; reflexivity].
  - intros s. unfold dflt. clear W W'. induction t as [|r t IH]; [reflexivity|]. cbn [map find]. destruct (F r) as (F1 & F2 & F3 & F4). unfold default_of at 1 3. rewrite F2, F4. destruct (r_def r && (r_scope r =? s)); [rewrite F3; reflexivity|exact IH].
Qed.
(** ** DELETE *)
Lemma find_filter : forall A (q p : A -> bool) l, (forall x y, In x l -> In y l -> q x = true -> q y = true -> x = y) ->
  find q (filter p l) = match find q l with Some r => if p r then Some r else None | None => None end.
Proof.
  intros A q p l U. destruct (find q l) as [r|] eqn:E.
  - apply find_some in E. destruct E as [I Q]. destruct (find q (filter p l)) as [r'|] eqn:E'.
    + apply find_some in E'. destruct E' as [I' Q']. apply filter_In in I'. destruct I' as [I' P']. assert (r' = r) by auto. subst r'. rewrite P'. reflexivity.
    + destruct (p r) eqn:P; [|reflexivity]. exfalso. assert (J : In r (filter p l)) by (apply filter_In; auto). pose proof (find_none _ _ E' r J). congruence.
  - destruct (find q (filter p l)) as [r'|] eqn:E'; [|reflexivity]. apply find_some in E'. destruct E' as [I' Q']. apply filter_In in I'. pose proof (find_none _ _ E r' (proj1 I')). congruence.
Qed.
Lemma wf_filter : forall p t, Wf t -> Wf (filter p t).
Proof.
  intros p t W. constructor.
  - destruct W as [W _ _]. induction t as [|r t IH]; [constructor|]. cbn [map] in W. inversion W as [|? ? N1 N2]; subst. cbn [filter]. destruct (p r); [|apply IH, N2]. cbn [map]. constructor; [|apply IH, N2]. intros I. apply N1. apply in_map_iff in I. destruct I as (x & E & I). apply filter_In in I. rewrite <- E. apply in_map, I.
  - destruct W as [_ W _]. induction t as [|r t IH]; [constructor|]. cbn [map] in W. inversion W as [|? ? N1 N2]; subst. cbn [filter]. destruct (p r); [|apply IH, N2]. cbn [map]. constructor; [|apply IH, N2]. intros I. apply N1. apply in_map_iff in I. destruct I as (x & E & I). apply filter_In in I. rewrite <- E. apply in_map, I.
  - intros r r' I I'. apply filter_In in I, I'. apply (w_def t W); tauto.
Qed.
Lemma names_unique : forall t n x y, Wf t -> In x t -> In y t -> named n x = true -> named n y = true -> x = y.
Proof. intros t n x y W I I' E E'. apply zlist_eqb_eq in E, E'. eapply nodup_map; [apply (w_name t W)|assumption|assumption|congruence]. Qed.
Lemma dflt_unique : forall t s x y, Wf t -> In x t -> In y t -> default_of s x = true -> default_of s y = true -> x = y.
Proof. intros t s x y W I I' E E'. unfold default_of in *. apply andb_true_iff in E, E'. destruct E as [E1 E2], E' as [E3 E4]. apply Z.eqb_eq in E2, E4. apply (w_def t W); congruence. Qed.
(** DELETE WHERE name=? *)
Lemma delete_named : forall t n, Wf t -> Wf (t_delete (named n) t) /\
  (forall m, look (t_delete (named n) t) m = if zlist_eqb n m then None else look t m) /\
  (forall s, dflt (t_delete (named n) t) s = match dflt t s with Some m => if zlist_eqb n m then None else Some m | None => None end).
Proof.
  intros t n W. split; [apply wf_filter, W|]. split.
  - intros m. unfold look, t_delete. rewrite find_filter by (intros; eapply names_unique; eassumption). destruct (find (named m) t) as [r|] eqn:E; [|destruct (zlist_eqb n m); reflexivity]. apply find_some in E. destruct E as [_ E]. apply zlist_eqb_eq in E. unfold named. rewrite E, eqb_sym_l. destruct (zlist_eqb n m); reflexivity.
  - intros s. unfold dflt, t_delete. rewrite find_filter by (intros; eapply dflt_unique; eassumption). destruct (find (default_of s) t) as [r|]; [|reflexivity]. unfold named. rewrite eqb_sym_l. destruct (zlist_eqb n (r_name r)); reflexivity.
Qed.
(** the cascade *)
Lemma delete_scope : forall t g, Wf t -> Wf (t_delete (fun r => has_id g (r_scope r)) t) /\
  (forall m, look (t_delete (fun r => has_id g (r_scope r)) t) m = match look t m with Some (i, s, b) => if has_id g s then None else Some (i, s, b) | None => None end) /\
  (forall s, dflt (t_delete (fun r => has_id g (r_scope r)) t) s = if has_id g s then None else dflt t s).
Proof.
  intros t g W. split; [apply wf_filter, W|]. split.
  - intros m. unfold look, t_delete. rewrite find_filter by (intros; eapply names_unique; eassumption). destruct (find (named m) t) as [r|] eqn:E; [|reflexivity]. destruct (has_id g (r_scope r)); reflexivity.
  - intros s. unfold dflt, t_delete. rewrite find_filter by (intros; eapply dflt_unique; eassumption). destruct (find (default_of s) t) as [r|] eqn:E; [|destruct (has_id g s); reflexivity]. apply find_some in E. destruct E as [_ E]. unfold default_of in E. apply andb_true_iff in E. destruct E as [_ E]. apply Z.eqb_eq in E. subst s. destruct (has_id g (r_scope r)); reflexivity.
Qed.
Lemma delete_all : forall t, t_delete (fun _ => true) t = [].
Proof. intros t. unfold t_delete. induction t as [|r t IH]; [reflexivity|exact IH]. Qed.
Lemma has_id_in : forall l i, has_id l i = true <-> In i l.
Proof. intros l i. unfold has_id. rewrite existsb_exists. split; [intros (x & I & E); apply Z.eqb_eq in E; subst; exact I|intros I; exists i; split; [exact I|apply Z.eqb_refl]]. Qed.
(** ** Joins *)
Lemma t_id_look : forall t n, t_id t n = match look t n with Some (i, _, _) => Some i | None => None end.
Proof. intros t n. unfold t_id, look. destruct (find (named n) t); reflexivity. Qed.
Lemma joined_ok : forall p c n, Wf p -> joined p c n = match look p n with Some (i, _, _) => filter (fun r => r_scope r =? i) c | None => [] end.
Proof.
  intros p c n W. unfold joined. assert (E : forall s, filter (fun x => (s =? r_id x) && named n x) p = match find (named n) p with Some x => if s =? r_id x then [x] else [] | None => [] end).
  { intros s. pose proof (filter_named p n W) as F. assert (G : filter (fun x => (s =? r_id x) && named n x) p = filter (fun x => s =? r_id x) (filter (named n) p)). { clear. induction p as [|x p IH]; [reflexivity|]. cbn [filter]. destruct (named n x); [cbn [filter]; rewrite andb_true_r, IH; reflexivity|rewrite andb_false_r; exact IH]. }
    rewrite G, F. destruct (find (named n) p) as [x|]; [cbn; destruct (s =? r_id x); reflexivity|reflexivity]. }
  unfold look. destruct (find (named n) p) as [x|]; induction c as [|r c IH]; try reflexivity; cbn [flat_map filter]; rewrite E, IH; [|reflexivity]. destruct (r_scope r =? r_id x); reflexivity.
Qed.
Lemma filter_default : forall t s, Wf t -> map r_name (filter r_def (filter (fun r => r_scope r =? s) t)) = match dflt t s with Some n => [n] | None => [] end /\
  map r_data (filter r_def (filter (fun r => r_scope r =? s) t)) = match dflt t s with Some n => match look t n with Some (_, _, b) => [b] | None => [] end | None => [] end.
Proof.
  intros t s W. assert (E : filter r_def (filter (fun r => r_scope r =? s) t) = match find (default_of s) t with Some r => [r] | None => [] end).
  { pose proof (w_def t W) as U. pose proof (w_id t W) as Ni. clear W. induction t as [|r t IH]; [reflexivity|]. cbn [map] in Ni. inversion Ni as [|? ? N1 N2]; subst. assert (U' : forall a b, In a t -> In b t -> r_def a = true -> r_def b = true -> r_scope a = r_scope b -> a = b) by (intros; apply U; try right; assumption). specialize (IH U' N2).
    cbn [filter find]. unfold default_of at 1. destruct (Z.eqb_spec (r_scope r) s) as [Es|Es]; [|rewrite andb_false_r; exact IH]. cbn [filter]. destruct (r_def r) eqn:D; [|exact IH]. cbn [andb]. f_equal. rewrite IH. destruct (find (default_of s) t) as [y|] eqn:F; [|reflexivity]. exfalso. apply find_some in F. destruct F as [I F]. unfold default_of in F. apply andb_true_iff in F. destruct F as [F1 F2]. apply Z.eqb_eq in F2. assert (r = y) by (apply U; [left; reflexivity|right; exact I|assumption|assumption|congruence]). subst y. apply N1. apply in_map, I. }
  rewrite E. unfold dflt. destruct (find (default_of s) t) as [r|] eqn:F; [|auto]. apply find_some in F. rewrite (look_row t r W (proj1 F)). auto.
Qed.
