(** * Property C51: the trust anchor container *)
From Verif Require Import Base BaseLemmas NameModel NameSpec NameProofs DictModel DictProofs PsyncProofs CertModel CertSpec CertProofs AnchorSpec.
From Coq Require Import Sorting.Sorted.
Local Open Scope res_scope.
Notation sorted := (StronglySorted canon_lt).

Section C51.
Context {C I : Type}.
Variable ct_name : C -> name.
Variable ct_check : C -> res unit.
Variable i_name : I -> name.
Variable i_matches : I -> C -> bool.
Notation ac_add := (ac_add ct_name ct_check).
Notation t_step := (t_step ct_name ct_check).
Notation t_run := (t_run ct_name ct_check).
Notation loaded := (loaded ct_check).
Notation g_refresh := (g_refresh ct_name ct_check).
Notation load_files := (load_files ct_name ct_check).

Record ainv (a : anchors C) : Prop := Ainv {
  a_dom : dom nval (ac_dict a);
  a_uniq : uniq (ac_dict a);
  a_sorted : sorted (ac_keys a);
  a_keys : forall k, In k (ac_keys a) <-> In k (dkeys (ac_dict a));
  a_name : forall k c, In (k, c) (ac_dict a) -> ct_name c = k }.
Lemma in_keys : forall (V : Type) (d : dict name V) k, In k (dkeys d) <-> exists v, In (k, v) d.
Proof.
  intros V d k. unfold dkeys. rewrite in_map_iff. split; [intros ([k' v] & <- & I'); eauto|]. intros [v I']. exists (k, v). auto.
Qed.
Lemma keys_val : forall a, ainv a -> Forall nval (ac_keys a).
Proof.
  intros s H. apply Forall_forall. intros k Hk. apply (a_keys s H) in Hk. apply in_keys in Hk. destruct Hk as [v Hk]. pose proof (a_dom s H) as D. unfold dom in D. rewrite Forall_forall in D. exact (D _ Hk).
Qed.
Lemma in_list_iff : forall n l, nval n -> Forall nval l -> (in_list n l = true <-> In n l).
Proof.
  intros n l Vn Vl. unfold in_list. rewrite existsb_exists. rewrite Forall_forall in Vl. split.
  - intros (k & Ik & E). apply Heqn in E; auto. subst. exact Ik.
  - intros H. exists n. split; [exact H|]. apply Heqn; auto.
Qed.
Lemma add_inv : forall a c, ainv a -> nval (ct_name c) -> ct_check c = Ok tt -> exists a', ac_add a c = Ok a' /\ ainv a' /\
  (forall k c', In (k, c') (ac_dict a') <-> (k = ct_name c /\ c' = c) \/ (k <> ct_name c /\ In (k, c') (ac_dict a))).
Proof.
  intros a c H V Ec. unfold CertModel.ac_add. rewrite Ec. cbn [rbind]. set (d' := dset n_equals (ac_dict a) (ct_name c) c).
  assert (Dd : dom nval d') by (apply dset_dom; [apply H|exact V]).
  assert (Ud : uniq d') by (apply (dset_uniq n_equals nval Heqn); [apply H|exact V|apply H]).
  assert (Ent : forall k c', In (k, c') d' <-> (k = ct_name c /\ c' = c) \/ (k <> ct_name c /\ In (k, c') (ac_dict a))).
  { intros k c'. assert (Main : nval k -> (In (k, c') d' <-> (k = ct_name c /\ c' = c) \/ (k <> ct_name c /\ In (k, c') (ac_dict a)))).
    { intros Vk. rewrite <- (dget_iff n_equals nval Heqn d' k _ Dd Ud Vk), <- (dget_iff n_equals nval Heqn (ac_dict a) k _ (a_dom _ H) (a_uniq _ H) Vk).
      unfold d'. rewrite (dset_get n_equals nval Heqn) by (try apply H; assumption). destruct (eqb_case n_equals nval Heqn _ _ V Vk) as [[Ek Eb]|[Nk Eb]]; rewrite Eb.
      - subst k. split; [intros [= <-]; left; auto|]. intros [[_ ->]|[X _]]; [reflexivity|congruence].
      - split; [intros X; right; split; [congruence|exact X]|]. intros [[X _]|[_ X]]; [congruence|exact X]. }
    pose proof (a_dom _ H) as D. unfold dom in Dd, D. rewrite Forall_forall in Dd, D.
    split; [intros I'; apply Main; [exact (Dd _ I')|exact I']|]. intros [[-> ->]|[N I']]; (apply Main; [|]); auto. exact (D _ I'). }
  assert (KK : forall k, In k (dkeys d') <-> k = ct_name c \/ In k (dkeys (ac_dict a))).
  { intros k. rewrite !in_keys. split.
    - intros [v I']. apply Ent in I'. destruct I' as [[-> _]|[_ I']]; [left; reflexivity|right; eauto].
    - intros [->|[v I']]; [exists c; apply Ent; left; auto|]. destruct (list_eq_dec (fun a b : comp => ltac:(decide equality; [apply (list_eq_dec Z.eq_dec)|apply Z.eq_dec|apply Z.eq_dec])) k (ct_name c)) as [->|N]; [exists c|exists v]; apply Ent; auto. }
  destruct (in_list (ct_name c) (ac_keys a)) eqn:Ei; eexists; (split; [reflexivity|]); (split; [|exact Ent]); (constructor; cbn [ac_dict ac_keys]; [exact Dd|exact Ud| | |]).
  - apply H.
  - intros k. rewrite KK, (a_keys _ H). apply in_list_iff in Ei; [|exact V|apply keys_val; exact H]. apply (a_keys _ H) in Ei. split; [auto|intros [->|X]; auto].
  - intros k c' I'. apply Ent in I'. destruct I' as [[-> ->]|[_ I']]; [reflexivity|exact (a_name _ H _ _ I')].
  - apply insort_sorted; [apply H|exact V|apply keys_val; exact H|]. intros X. apply in_list_iff in X; [congruence|exact V|apply keys_val; exact H].
  - intros k. rewrite insort_in, KK, (a_keys _ H). reflexivity.
  - intros k c' I'. apply Ent in I'. destruct I' as [[-> ->]|[_ I']]; [reflexivity|exact (a_name _ H _ _ I')].
Qed.
Lemma remove_inv : forall a n, ainv a -> nval n -> ainv (ac_remove a n) /\ (forall k c, In (k, c) (ac_dict (ac_remove a n)) <-> In (k, c) (ac_dict a) /\ k <> n).
Proof.
  intros s n H V. unfold ac_remove. cbn [ac_dict].
  assert (A1 : dom nval (dremove n_equals (ac_dict s) n)) by (apply dremove_dom; apply H). assert (A2 : uniq (dremove n_equals (ac_dict s) n)) by (apply dremove_uniq; apply H).
  assert (Ent : forall k c, In (k, c) (dremove n_equals (ac_dict s) n) <-> In (k, c) (ac_dict s) /\ k <> n).
  { intros k c. assert (Main : nval k -> (In (k, c) (dremove n_equals (ac_dict s) n) <-> In (k, c) (ac_dict s) /\ k <> n)).
    { intros Vk. rewrite <- (dget_iff n_equals nval Heqn _ k _ A1 A2 Vk), <- (dget_iff n_equals nval Heqn _ k _ (a_dom _ H) (a_uniq _ H) Vk).
      rewrite (dremove_get n_equals nval Heqn) by (try apply H; assumption). destruct (eqb_case n_equals nval Heqn n k V Vk) as [[-> Eb]|[Nk Eb]]; rewrite Eb; [split; [discriminate|tauto]|].
      split; [intros X; split; [exact X|congruence]|tauto]. }
    pose proof (a_dom _ H) as D. unfold dom in A1, D. rewrite Forall_forall in A1, D.
    split; [intros I'; apply Main; [exact (A1 _ I')|exact I']|]. intros [I' L]. apply Main; [exact (D _ I')|]. auto. }
  split; [|exact Ent]. constructor; cbn [ac_dict ac_keys]; [exact A1|exact A2|apply list_remove_sorted; apply H| |].
  - intros k. rewrite list_remove_in by (try apply keys_val; try apply sorted_nodup; try apply H; assumption). rewrite (a_keys _ H), !in_keys. split.
    + intros [[c I'] N]. exists c. apply Ent. auto.
    + intros [c I']. apply Ent in I'. destruct I' as [I' N]. eauto.
  - intros k c I'. apply Ent in I'. apply (a_name _ H k c). apply I'.
Qed.
Lemma empty_inv : ainv ac_empty.
Proof. constructor; cbn [ac_empty ac_dict ac_keys dkeys map In]; try constructor; intros; contradiction. Qed.

(** ** Every step keeps the invariant, and only adds certificates it was given *)
Definition from (P : C -> Prop) (a : anchors C) : Prop := forall k c, In (k, c) (ac_dict a) -> P c.
Definition gval (g : group) : Prop := Forall nval (g_names g).
Definition fval (fs : list (option C)) : Prop := forall c, In (Some c) fs -> nval (ct_name c).
Lemma list_remove_val : forall l n, Forall nval l -> Forall nval (list_remove l n).
Proof. induction l as [|x l IH]; intros n H; [constructor|]. inversion H; subst. cbn [list_remove]. destruct (n_equals x n); [assumption|constructor; auto]. Qed.
Lemma set_add_val : forall l n, Forall nval l -> nval n -> Forall nval (set_add l n).
Proof. intros l n H V. unfold set_add. destruct (in_list n l); [exact H|]. apply Forall_app. split; [exact H|constructor; [exact V|constructor]]. Qed.
Lemma add_err : forall a c e, ac_add a c = Err e -> ct_check c <> Ok tt.
Proof. intros a c e H X. unfold CertModel.ac_add in H. rewrite X in H. cbn [rbind] in H. destruct (in_list _ _); discriminate. Qed.
Lemma add_ok : forall a c a', ac_add a c = Ok a' -> ct_check c = Ok tt.
Proof. intros a c a' H. unfold CertModel.ac_add in H. destruct (ct_check c) as [[]|]; [reflexivity|discriminate]. Qed.

Lemma load_files_inv : forall (P : C -> Prop) fs names a old, ainv a -> Forall nval names -> Forall nval old -> fval fs -> from P a -> (forall c, In (Some c) fs -> ct_check c = Ok tt -> P c) ->
  match load_files fs names a old with (names', a', r) => ainv a' /\ Forall nval names' /\ from P a' /\ match r with Ok old' => Forall nval old' | Err _ => True end end.
Proof.
  intros P. induction fs as [|f fs IH]; intros names a old H Vn Vo Vf Fa Pf; cbn [CertModel.load_files]; [auto|].
  assert (Vf' : fval fs) by (intros c I'; apply Vf; right; exact I'). assert (Pf' : forall c, In (Some c) fs -> ct_check c = Ok tt -> P c) by (intros c I'; apply Pf; right; exact I').
  destruct f as [c|]; [|apply IH; assumption]. assert (Vc : nval (ct_name c)) by (apply Vf; left; reflexivity).
  destruct (negb (in_list (ct_name c) names)).
  - destruct (ac_add a c) as [a'|e] eqn:E.
    + pose proof (add_ok _ _ _ E) as Ec. destruct (add_inv a c H Vc Ec) as (a1 & E1 & Ha & Ent). assert (a1 = a') by congruence. subst a1. apply IH; [exact Ha|apply set_add_val; assumption|assumption|assumption| |assumption].
      intros k c' I'. apply Ent in I'. destruct I' as [[_ ->]|[_ I']]; [apply Pf; [left; reflexivity|exact Ec]|eapply Fa; exact I'].
    + split; [exact H|]. split; [apply set_add_val; assumption|]. auto.
  - unfold set_remove. destruct (in_list (ct_name c) old); [|auto]. apply IH; try assumption. apply list_remove_val. exact Vo.
Qed.
Lemma drop_old_inv : forall (P : C -> Prop) old names a, ainv a -> Forall nval names -> Forall nval old -> from P a ->
  match drop_old old names a with (names', a', r) => ainv a' /\ Forall nval names' /\ from P a' end.
Proof.
  intros P. induction old as [|n old IH]; intros names a H Vn Vo Fa; cbn [drop_old]; [auto|]. inversion Vo as [|? ? V1 V2]; subst. unfold set_remove. destruct (in_list n names); [|auto].
  destruct (remove_inv a n H V1) as [Ha Ent]. apply IH; [exact Ha|apply list_remove_val; exact Vn|exact V2|]. intros k c I'. apply Ent in I'. eapply Fa. apply I'.
Qed.
Lemma g_refresh_inv : forall (P : C -> Prop) g a now files, ainv a -> gval g -> from P a -> (forall fs, files = Ok fs -> fval fs) -> (forall fs c, files = Ok fs -> In (Some c) fs -> ct_check c = Ok tt -> P c) ->
  match g_refresh g a now files with (g', a', r) => ainv a' /\ gval g' /\ from P a' /\ (g_dynamic g = None -> g' = g /\ a' = a /\ r = Ok tt) end.
Proof.
  intros P g a now files H Vg Fa Vf Pf. unfold CertModel.g_refresh. destruct (g_dynamic g) as [[period expire]|] eqn:Ed; [|split; [exact H|split; [exact Vg|split; [exact Fa|auto]]]].
  assert (Q : forall X : Prop, Some (period, expire) = None -> X) by (intros X HX; discriminate).
  destruct (now <? expire); [split; [exact H|]; split; [exact Vg|]; split; [exact Fa|apply Q]|].
  destruct files as [fs|e]; [|split; [exact H|]; split; [exact Vg|]; split; [exact Fa|apply Q]].
  pose proof (load_files_inv P fs (g_names g) a (g_names g) H Vg Vg (Vf fs eq_refl) Fa (fun c => Pf fs c eq_refl)) as L. destruct (load_files fs (g_names g) a (g_names g)) as [[names a'] [old|e]].
  - destruct L as (L1 & L2 & L3 & L4). pose proof (drop_old_inv P old names a' L1 L2 L4 L3) as D. destruct (drop_old old names a') as [[names' a''] r]. destruct D as (D1 & D2 & D3).
    split; [exact D1|]. split; [exact D2|]. split; [exact D3|apply Q].
  - destruct L as (L1 & L2 & L3 & L4). split; [exact L1|]. split; [exact L2|]. split; [exact L3|apply Q].
Qed.
Definition groups_val (gs : dict Z group) : Prop := forall id g, In (id, g) gs -> gval g.
Record tinv (t : container C) : Prop := Tinv { t_a : ainv (tc_anchors t); t_g : groups_val (tc_groups t) }.
Lemma zset_in : forall (V : Type) (d : dict Z V) k v x, In x (dset Z.eqb d k v) -> x = (k, v) \/ In x d.
Proof.
  induction d as [|[k' v'] d IH]; intros k v x H; cbn [dset] in H; [destruct H as [<-|[]]; auto|]. destruct (k' =? k) eqn:E.
  - destruct H as [<-|H]; [left; f_equal; lia|right; right; exact H].
  - destruct H as [<-|H]; [right; left; reflexivity|]. apply IH in H. destruct H; [left|right; right]; assumption.
Qed.
Lemma zget_in : forall (V : Type) (d : dict Z V) k v, dget Z.eqb d k = Some v -> In (k, v) d.
Proof. induction d as [|[k' v'] d IH]; intros k v H; cbn [dget] in H; [discriminate|]. destruct (k' =? k) eqn:E; [injection H as ->; left; f_equal; lia|right; auto]. Qed.

Definition op_good (o : @t_op C) : Prop :=
  match o with
  | TInsert _ c => nval (ct_name c)
  | TPath _ _ _ files => forall fs, files = Ok fs -> fval fs
  | TRemove _ n => nval n
  | TFind _ files => forall id fs, files id = Ok fs -> fval fs
  | TClear => True
  end.
Lemma refresh_groups_inv : forall (P : C -> Prop) now files gs a, ainv a -> groups_val gs -> from P a -> (forall id fs, files id = Ok fs -> fval fs) ->
  (forall id fs c, files id = Ok fs -> In (Some c) fs -> ct_check c = Ok tt -> P c) ->
  match refresh_groups ct_name ct_check now files gs a with (gs', a', r) => ainv a' /\ groups_val gs' /\ from P a' end.
Proof.
  intros P now files. induction gs as [|[id g] gs IH]; intros a H Vg Fa Vf Pf; cbn [refresh_groups]; [auto|].
  assert (Vg1 : gval g) by (apply (Vg id); left; reflexivity). assert (Vg2 : groups_val gs) by (intros id' g' I'; apply (Vg id'); right; exact I').
  pose proof (g_refresh_inv P g a now (files id) H Vg1 Fa (Vf id) (Pf id)) as G. destruct (g_refresh g a now (files id)) as [[g' a'] r]. destruct G as (G1 & G2 & G3 & _). destruct r as [u|e].
  - pose proof (IH a' G1 Vg2 G3 Vf Pf) as R. destruct (refresh_groups ct_name ct_check now files gs a') as [[gs'' a''] r']. destruct R as (R1 & R2 & R3). split; [exact R1|]. split; [|exact R3].
    intros id' g0 [[= <- <-]|I']; [exact G2|eapply R2; exact I'].
  - split; [exact G1|]. split; [|exact G3]. intros id' g0 [[= <- <-]|I']; [exact G2|eapply Vg2; exact I'].
Qed.
Lemma step_inv : forall (P : C -> Prop) t o, tinv t -> op_good o -> from P (tc_anchors t) -> (forall c, gives o c -> ct_check c = Ok tt -> P c) -> tinv (t_step t o) /\ from P (tc_anchors (t_step t o)).
Proof.
  intros P t o [Ha Hg] Go Fa Pf. destruct o as [id c|id period now files|id n|now files|]; cbn [AnchorSpec.t_step op_good gives] in *.
  - unfold tc_insert.
    set (tg := match dget Z.eqb (tc_groups t) id with Some g => (t, g) | None => let g := Group [] None in (Container (dset Z.eqb (tc_groups t) id g) (tc_anchors t), g) end).
    assert (T : tinv (fst tg) /\ gval (snd tg) /\ tc_anchors (fst tg) = tc_anchors t).
    { unfold tg. destruct (dget Z.eqb (tc_groups t) id) as [g|] eqn:E; cbn [fst snd tc_anchors].
      - split; [constructor; assumption|]. split; [|reflexivity]. eapply Hg. apply zget_in. exact E.
      - split; [|split; [constructor|reflexivity]]. constructor; [exact Ha|]. cbn [tc_groups]. intros id' g I'. apply zset_in in I'. destruct I' as [[= -> ->]|I']; [constructor|eapply Hg; exact I']. }
    destruct tg as [t1 g]. cbn [fst snd] in T. destruct T as ([T1a T1g] & Tg & Ta). destruct (g_dynamic g); [cbn [fst]; split; [constructor; assumption|rewrite Ta; exact Fa]|].
    unfold static_add. destruct (in_list (ct_name c) (g_names g)); cbn [fst tc_anchors].
    + split; [|rewrite Ta; exact Fa]. constructor; [exact T1a|]. cbn [tc_groups]. intros id' g0 I'. apply zset_in in I'. destruct I' as [[= -> ->]|I']; [exact Tg|eapply T1g; exact I'].
    + assert (Vg' : gval (Group (set_add (g_names g) (ct_name c)) (g_dynamic g))) by (apply set_add_val; assumption).
      destruct (ac_add (tc_anchors t1) c) as [a'|e] eqn:E; cbn [fst tc_anchors].
      * pose proof (add_ok _ _ _ E) as Ec. destruct (add_inv _ c T1a Go Ec) as (a1 & E1 & Ha' & Ent). assert (a1 = a') by congruence. subst a1.
        split; [constructor; [exact Ha'|]; cbn [tc_groups]; intros id' g0 I'; apply zset_in in I'; destruct I' as [[= -> ->]|I']; [exact Vg'|eapply T1g; exact I']|].
        intros k c' I'. apply Ent in I'. destruct I' as [[_ ->]|[_ I']]; [apply Pf; [reflexivity|exact Ec]|rewrite Ta in I'; eapply Fa; exact I'].
      * split; [|rewrite Ta; exact Fa]. constructor; [exact T1a|]. cbn [tc_groups]. intros id' g0 I'. apply zset_in in I'. destruct I' as [[= -> ->]|I']; [exact Vg'|eapply T1g; exact I'].
  - unfold tc_insertPath. destruct (din Z.eqb (tc_groups t) id); [split; [constructor; assumption|exact Fa]|]. destruct (period <=? 0); [split; [constructor; assumption|exact Fa]|].
    pose proof (g_refresh_inv P (Group [] (Some (period, 0))) (tc_anchors t) now files Ha (Forall_nil _) Fa Go (fun fs c E I' K => Pf c (ex_intro _ fs (conj E I')) K)) as G.
    destruct (g_refresh _ _ now files) as [[g a] r]. destruct G as (G1 & G2 & G3 & _). destruct r as [u|e]; cbn [fst tc_anchors]; (split; [constructor; [exact G1|]|exact G3]); cbn [tc_groups]; [|exact Hg].
    intros id' g0 I'. apply zset_in in I'. destruct I' as [[= -> ->]|I']; [exact G2|eapply Hg; exact I'].
  - unfold tc_remove. destruct (dget Z.eqb (tc_groups t) id) as [g|] eqn:E; [|split; [constructor; assumption|exact Fa]]. destruct (g_dynamic g) eqn:Ed; [split; [constructor; assumption|exact Fa]|].
    cbn [static_remove fst tc_anchors]. destruct (remove_inv _ n Ha Go) as [Ha' Ent]. split.
    + constructor; [exact Ha'|]. cbn [tc_groups]. intros id' g0 I'. apply zset_in in I'. destruct I' as [[= -> ->]|I']; [apply list_remove_val; eapply Hg; apply zget_in; exact E|eapply Hg; exact I'].
    + intros k c I'. apply Ent in I'. eapply Fa. apply I'.
  - unfold tc_refresh. pose proof (refresh_groups_inv P now files (tc_groups t) (tc_anchors t) Ha Hg Fa Go (fun id fs c E I' K => Pf c (ex_intro _ id (ex_intro _ fs (conj E I'))) K)) as R.
    destruct (refresh_groups ct_name ct_check now files (tc_groups t) (tc_anchors t)) as [[gs a] r]. destruct R as (R1 & R2 & R3). cbn [fst tc_anchors]. split; [constructor; assumption|exact R3].
  - unfold tc_clear. cbn [tc_anchors]. split; [constructor; [apply empty_inv|intros id g []]|intros k c []].
Qed.
Lemma run_snoc : forall ops o, t_run (ops ++ [o]) = t_step (t_run ops) o.
Proof. intros. unfold AnchorSpec.t_run. apply fold_left_app. Qed.
Definition good (ops : list (@t_op C)) : Prop := forall o, In o ops -> op_good o.
Lemma good_snoc : forall ops o, good (ops ++ [o]) -> good ops /\ op_good o.
Proof. intros ops o G. split; [intros x Hx; apply G; apply in_or_app; left; exact Hx|apply G; apply in_or_app; right; left; reflexivity]. Qed.
Lemma loaded_snoc : forall ops o c, o <> TClear -> (loaded ops c \/ (gives o c /\ ct_check c = Ok tt)) -> loaded (ops ++ [o]) c.
Proof.
  intros ops o c N [[E (o1 & x & o2 & -> & Gx & Nc)]|[Gx E]].
  - split; [exact E|]. exists o1, x, (o2 ++ [o]). split; [rewrite <- app_assoc; reflexivity|]. split; [exact Gx|]. intros X. apply in_app_or in X. destruct X as [X|[X|[]]]; [auto|congruence].
  - split; [exact E|]. exists ops, o, []. auto.
Qed.
Lemma run_inv : forall ops, good ops -> tinv (t_run ops) /\ from (loaded ops) (tc_anchors (t_run ops)).
Proof.
  induction ops as [|o ops IH] using rev_ind; intros G.
  - split; [constructor; [apply empty_inv|intros id g []]|intros k c []].
  - apply good_snoc in G. destruct G as [G Go]. destruct (IH G) as [T F]. rewrite run_snoc. destruct o as [id c|id period now files|id n|now files|].
    5: { unfold AnchorSpec.t_step, tc_clear. cbn [tc_anchors]. split; [constructor; [apply empty_inv|intros id g []]|intros k c []]. }
    all: apply step_inv; [exact T|exact Go| |]; [intros k0 c0 I'; apply loaded_snoc; [discriminate|left; eapply F; exact I']|intros c0 Gc K; apply loaded_snoc; [discriminate|right; auto]].
Qed.
(** Only certificates loaded since the last clear are anchors, at most one for a name. *)
Theorem C51_sound : forall ops, good ops -> (forall c, anchored (t_run ops) c -> loaded ops c) /\
  (forall c c', anchored (t_run ops) c -> anchored (t_run ops) c' -> ct_name c = ct_name c' -> c = c').
Proof.
  intros ops G. destruct (run_inv ops G) as [[Ha _] F]. split.
  - intros c [k I']. eapply F. exact I'.
  - intros c c' [k I1] [k' I2] E. pose proof (a_name _ Ha _ _ I1) as E1. pose proof (a_name _ Ha _ _ I2) as E2. assert (k = k') by congruence. subst k'.
    pose proof (in_dget n_equals nval Heqn _ _ _ (a_dom _ Ha) (a_uniq _ Ha) I1) as G1. pose proof (in_dget n_equals nval Heqn _ _ _ (a_dom _ Ha) (a_uniq _ Ha) I2) as G2. congruence.
Qed.

(** ** find *)
Lemma find_loop_ok : forall (d : dict name C) i ks, dom nval d -> uniq d -> (forall k, In k ks -> exists c, In (k, c) d /\ ct_name c = k) ->
  exists r, tc_find_loop ct_name i_name i_matches d i ks = Ok r /\
  match r with
  | Some c => exists a k b, ks = a ++ k :: b /\ In (k, c) d /\ i_matches i c = true /\ under_values (i_name i) k /\
      (forall k' c', In k' a -> In (k', c') d -> i_matches i c' = false)
  | None => exists a b, ks = a ++ b /\ (forall k c, In k a -> In (k, c) d -> i_matches i c = false) /\ match b with [] => True | k :: _ => ~ under_values (i_name i) k end
  end.
Proof.
  intros d i ks Hd Hu. induction ks as [|k ks IH]; intros K; cbn [tc_find_loop].
  - exists None. split; [reflexivity|]. exists [], []. split; [reflexivity|]. split; [intros k c []|exact Logic.I].
  - destruct (K k (or_introl eq_refl)) as (c & Ik & Ek). unfold dindex. pose proof (in_dget n_equals nval Heqn _ _ _ Hd Hu Ik) as Gk. rewrite Gk. cbn [rbind]. rewrite Ek.
    assert (Only : forall c', In (k, c') d -> c' = c).
    { intros c' I'. pose proof (in_dget n_equals nval Heqn _ _ _ Hd Hu I') as G'. rewrite Gk in G'. congruence. }
    destruct (n_isPrefixOf (i_name i) k) eqn:Ep; cbn [negb].
    + destruct (i_matches i c) eqn:Em.
      * exists (Some c). split; [reflexivity|]. exists [], k, ks. split; [reflexivity|]. split; [exact Ik|]. split; [exact Em|]. split; [apply isPrefixOf_iff; exact Ep|]. intros k' c' [].
      * destruct IH as (r0 & E & P); [intros k' I'; apply K; right; exact I'|]. exists r0. split; [exact E|]. destruct r0 as [c0|].
        -- destruct P as (a & k0 & b & -> & P1 & P2 & P3 & P4). exists (k :: a), k0, b. split; [reflexivity|]. split; [exact P1|]. split; [exact P2|]. split; [exact P3|].
           intros k' c' [<-|I'] J; [rewrite (Only _ J); exact Em|eauto].
        -- destruct P as (a & b & -> & P1 & P2). exists (k :: a), b. split; [reflexivity|]. split; [|exact P2]. intros k' c' [<-|I'] J; [rewrite (Only _ J); exact Em|eauto].
    + exists None. split; [reflexivity|]. exists [], (k :: ks). split; [reflexivity|]. split; [intros k' c' []|]. intros U. apply isPrefixOf_iff in U. congruence.
Qed.
(** find with an Interest: the refresh of the dynamic groups may raise; otherwise the least
    matching anchor under the name is returned, whatever its validity period, and one is
    returned when one matches. *)
Theorem C51_find : forall ops now files i, good (ops ++ [TFind now files]) -> nval (i_name i) ->
  let t' := t_run (ops ++ [TFind now files]) in
  match tc_find ct_name ct_check i_name i_matches (t_run ops) now files i with
  | (t, Err e) => t = t' /\ snd (tc_refresh ct_name ct_check (t_run ops) now files) = Err e
  | (t, Ok (Some c)) => t = t' /\ anchored t' c /\ i_matches i c = true /\ under_values (i_name i) (ct_name c) /\
      (forall c', anchored t' c' -> under_name (i_name i) (ct_name c') -> i_matches i c' = true -> ct_name c' = ct_name c \/ canon_lt (ct_name c) (ct_name c'))
  | (t, Ok None) => t = t' /\ (forall c, anchored t' c -> under_name (i_name i) (ct_name c) -> i_matches i c = false)
  end.
Proof.
  intros ops now files i G Vp. cbv zeta. destruct (run_inv _ G) as [[A _] _]. rewrite run_snoc in *. cbn [AnchorSpec.t_step] in *. unfold tc_find.
  destruct (tc_refresh ct_name ct_check (t_run ops) now files) as [t r]. cbn [fst snd] in *. destruct r as [u|e]; [|auto]. unfold ac_find. set (s' := tc_anchors t) in *.
  destruct (bisect_left_spec (ac_keys s') (i_name i) (a_sorted _ A)) as [Fl Fr]. set (j := bisect_left (ac_keys s') (i_name i)) in *.
  assert (Sp : ac_keys s' = firstn j (ac_keys s') ++ skipn j (ac_keys s')) by (symmetry; apply firstn_skipn).
  assert (Sk : sorted (skipn j (ac_keys s'))) by (pose proof (a_sorted _ A) as X; rewrite Sp in X; apply sorted_app in X; apply X).
  assert (Val : forall k, In k (skipn j (ac_keys s')) -> nval k).
  { intros k I'. pose proof (keys_val _ A) as Kv. rewrite Forall_forall in Kv. apply Kv. rewrite Sp. apply in_or_app. right. exact I'. }
  destruct (find_loop_ok (ac_dict s') i (skipn j (ac_keys s')) (a_dom _ A) (a_uniq _ A)) as (r & Er & P).
  { intros k I'. assert (I2 : In k (ac_keys s')) by (rewrite Sp; apply in_or_app; right; exact I'). apply (a_keys _ A) in I2. apply in_keys in I2. destruct I2 as [c I2]. exists c. split; [exact I2|]. exact (a_name _ A _ _ I2). }
  rewrite Er.
  assert (Here : forall c, anchored t c -> In (ct_name c, c) (ac_dict s')) by (intros c [k I']; rewrite (a_name _ A _ _ I'); exact I').
  assert (KeyOf : forall c, anchored t c -> under_name (i_name i) (ct_name c) -> In (ct_name c) (skipn j (ac_keys s'))).
  { intros c Hc U. assert (X : In (ct_name c) (ac_keys s')) by (apply (a_keys _ A); apply in_keys; eexists; apply Here; exact Hc).
    rewrite Sp in X. apply in_app_or in X. destruct X as [X|X]; [elim (under_not_lt _ _ U (Fl _ X))|exact X]. }
  destruct r as [c|]; (split; [reflexivity|]).
  - destruct P as (a & k & b & Es & Ik & Em & U & Pre). pose proof (a_name _ A _ _ Ik) as Ek. split; [exists k; exact Ik|]. split; [exact Em|]. rewrite Ek. split; [exact U|].
    intros c' Hc' U' Em'. pose proof (KeyOf c' Hc' U') as I'. rewrite Es in I', Sk.
    apply in_app_or in I'. destruct I' as [I'|[I'|I']]; [rewrite (Pre _ _ I' (Here _ Hc')) in Em'; discriminate|left; congruence|right].
    apply sorted_app in Sk. destruct Sk as (_ & S2 & _). inversion S2 as [|? ? _ F]; subst. rewrite Forall_forall in F. auto.
  - destruct P as (a & b & Es & Pre & Nb). intros c Hc U. pose proof (KeyOf c Hc U) as I'. rewrite Es in I', Sk. apply in_app_or in I'. destruct I' as [I'|I']; [exact (Pre _ _ I' (Here _ Hc))|].
    destruct b as [|k b]; [destruct I'|]. exfalso. apply Nb. apply under_name_values.
    apply (prefix_convex (i_name i) (ct_name c) k Vp).
    + apply Val. rewrite Es. apply in_or_app. right. exact I'.
    + apply Val. rewrite Es. apply in_or_app. right. left. reflexivity.
    + exact U.
    + apply Fr. rewrite Es. apply in_or_app. right. left. reflexivity.
    + apply sorted_app in Sk. destruct Sk as (_ & S2 & _). inversion S2 as [|? ? _ F]; subst. rewrite Forall_forall in F. destruct I' as [<-|I']; [right; reflexivity|left; auto].
Qed.
(** find with a Name *)
Theorem C51_find_name : forall ops now files p, good (ops ++ [TFind now files]) -> nval p ->
  let t' := t_run (ops ++ [TFind now files]) in
  match tc_find_name ct_name ct_check (t_run ops) now files p with
  | (t, Err e) => t = t' /\ snd (tc_refresh ct_name ct_check (t_run ops) now files) = Err e
  | (t, Ok (Some c)) => t = t' /\ anchored t' c /\ under_values p (ct_name c) /\
      (forall c', anchored t' c' -> under_name p (ct_name c') -> ct_name c' = ct_name c \/ canon_lt (ct_name c) (ct_name c'))
  | (t, Ok None) => t = t' /\ (forall c, anchored t' c -> ~ under_name p (ct_name c))
  end.
Proof.
  intros ops now files p G Vp. cbv zeta. destruct (run_inv _ G) as [[A _] _]. rewrite run_snoc in *. cbn [AnchorSpec.t_step] in *. unfold tc_find_name.
  destruct (tc_refresh ct_name ct_check (t_run ops) now files) as [t r]. cbn [fst snd] in *. destruct r as [u|e]; [|auto]. unfold ac_find_name. set (s' := tc_anchors t) in *.
  pose proof (first_at (ac_keys s') p (a_sorted _ A)) as Fa.
  assert (KeyOf : forall c, anchored t c -> In (ct_name c) (ac_keys s')) by (intros c [k I']; apply (a_keys _ A); apply in_keys; exists c; rewrite (a_name _ A _ _ I'); exact I').
  destruct (nth_error (ac_keys s') (bisect_left (ac_keys s') p)) as [k|].
  - destruct Fa as (Ik & Nk & Lk). pose proof Ik as Ik'. apply (a_keys _ A) in Ik'. apply in_keys in Ik'. destruct Ik' as [c Ie]. unfold dindex. rewrite (in_dget n_equals nval Heqn _ _ _ (a_dom _ A) (a_uniq _ A) Ie).
    cbn [rbind]. pose proof (a_name _ A _ _ Ie) as Ek. rewrite Ek. destruct (n_isPrefixOf p k) eqn:Ep; cbn [negb].
    + split; [reflexivity|]. split; [exists k; exact Ie|]. rewrite Ek. split; [apply isPrefixOf_iff; exact Ep|]. intros c' Hc' U.
      apply Lk; [apply KeyOf; assumption|apply under_not_lt; exact U].
    + split; [reflexivity|]. intros c0 Hc U. pose proof (KeyOf c0 Hc) as Ic.
      pose proof (keys_val _ A) as Kv. rewrite Forall_forall in Kv.
      assert (Uk : under_name p k).
      { apply (prefix_convex p (ct_name c0) k Vp (Kv _ Ic) (Kv _ Ik) U Nk). destruct (Lk _ Ic (under_not_lt _ _ U)) as [X|X]; [right; congruence|left; exact X]. }
      apply under_name_values in Uk. apply isPrefixOf_iff in Uk. congruence.
  - split; [reflexivity|]. intros c Hc U. exact (under_not_lt _ _ U (Fa _ (KeyOf c Hc))).
Qed.

(** ** Static anchors stay *)
Definition static_ops (ops : list (@t_op C)) : Prop := forall o, In o ops -> match o with TPath _ _ _ _ => False | _ => True end.
Definition members (ops : list (@t_op C)) (gs : dict Z group) : Prop :=
  forall id g, In (id, g) gs -> g_dynamic g = None /\ forall n, In n (g_names g) -> exists c, In (TInsert id c) ops /\ ct_name c = n.
Lemma list_remove_incl : forall l n x, In x (list_remove l n) -> In x l.
Proof. induction l as [|y l IH]; intros n x H; [destruct H|]. cbn [list_remove] in H. destruct (n_equals y n); [right; exact H|]. destruct H as [<-|H]; [left; reflexivity|right; eauto]. Qed.
Lemma members_more : forall ops o gs, members ops gs -> members (ops ++ [o]) gs.
Proof.
  intros ops o gs M id g I'. destruct (M id g I') as [A B]. split; [exact A|]. intros n Hn. destruct (B n Hn) as (c & Hc & E). exists c. split; [apply in_or_app; left; exact Hc|exact E].
Qed.
Lemma static_refresh : forall now files gs a, (forall id g, In (id, g) gs -> g_dynamic g = None) -> refresh_groups ct_name ct_check now files gs a = (gs, a, Ok tt).
Proof.
  intros now files. induction gs as [|[id g] gs IH]; intros a H; [reflexivity|]. cbn [refresh_groups]. unfold CertModel.g_refresh. rewrite (H id g (or_introl eq_refl)). rewrite IH; [reflexivity|].
  intros id' g' I'. apply (H id'). right. exact I'.
Qed.
Lemma insert_cases : forall t id c, (forall g, dget Z.eqb (tc_groups t) id = Some g -> g_dynamic g = None) ->
  let g := match dget Z.eqb (tc_groups t) id with Some g => g | None => Group [] None end in
  exists gs g', (forall x, In x gs -> x = (id, g') \/ In x (tc_groups t)) /\ g_dynamic g' = None /\ (forall n, In n (g_names g') -> n = ct_name c \/ In n (g_names g)) /\
  fst (tc_insert ct_name ct_check t id c) = Container gs (if in_list (ct_name c) (g_names g) then tc_anchors t else match ac_add (tc_anchors t) c with Ok a => a | Err _ => tc_anchors t end).
Proof.
  intros t id c H. cbv zeta. unfold tc_insert. destruct (dget Z.eqb (tc_groups t) id) as [g|] eqn:E.
  - rewrite (H g eq_refl). unfold static_add. destruct (in_list (ct_name c) (g_names g)).
    + exists (dset Z.eqb (tc_groups t) id g), g. split; [intros x Hx; apply zset_in in Hx; exact Hx|]. split; [exact (H g eq_refl)|]. split; [auto|reflexivity].
    + exists (dset Z.eqb (tc_groups t) id (Group (set_add (g_names g) (ct_name c)) (g_dynamic g))), (Group (set_add (g_names g) (ct_name c)) (g_dynamic g)).
      split; [intros x Hx; apply zset_in in Hx; exact Hx|]. split; [exact (H g eq_refl)|]. split.
      * cbn [g_names]. intros n Hn. unfold set_add in Hn. destruct (in_list _ _); [auto|]. apply in_app_or in Hn. destruct Hn as [Hn|[<-|[]]]; auto.
      * destruct (ac_add (tc_anchors t) c); reflexivity.
  - cbn [g_dynamic g_names in_list existsb static_add tc_groups tc_anchors]. unfold static_add. cbn [g_dynamic g_names in_list existsb].
    set (g' := Group (set_add [] (ct_name c)) None). exists (dset Z.eqb (dset Z.eqb (tc_groups t) id (Group [] None)) id g'), g'. split.
    { intros x Hx. assert (Hx' : x = (id, g') \/ In x (tc_groups t)); [|exact Hx'].
      revert Hx. clear. generalize (tc_groups t). induction d as [|[k v] d IH]; cbn [dset].
      - rewrite Z.eqb_refl. intros [<-|[]]. auto.
      - destruct (k =? id) eqn:Ek; cbn [dset]; rewrite Ek; intros [<-|Hx]; [left; f_equal; lia|right; right; exact Hx|right; left; reflexivity|]. destruct (IH Hx); [left|right; right]; assumption. }
    split; [reflexivity|]. split; [intros n [<-|[]]; auto|]. destruct (ac_add (tc_anchors t) c); reflexivity.
Qed.
Lemma run_members : forall ops, static_ops ops -> members ops (tc_groups (t_run ops)).
Proof.
  induction ops as [|o ops IH] using rev_ind; intros S; [intros id g []|].
  assert (S0 : static_ops ops) by (intros x Hx; apply S; apply in_or_app; left; exact Hx). assert (So := S o ltac:(apply in_or_app; right; left; reflexivity)). specialize (IH S0). rewrite run_snoc.
  destruct o as [id c|id period now files|id n|now files|]; cbn [AnchorSpec.t_step]; [|contradiction| | |].
  - destruct (insert_cases (t_run ops) id c) as (gs & g' & A & B & D & E); [intros g Hg; apply zget_in in Hg; apply (IH id g Hg)|]. rewrite E. cbn [tc_groups].
    intros id' g0 I'. apply A in I'. destruct I' as [[= -> ->]|I']; [|apply (members_more ops _ _ IH id' g0 I')]. split; [exact B|]. intros n Hn. apply D in Hn. destruct Hn as [->|Hn].
    + exists c. split; [apply in_or_app; right; left; reflexivity|reflexivity].
    + destruct (dget Z.eqb (tc_groups (t_run ops)) id) as [g|] eqn:Eg; [|destruct Hn]. apply zget_in in Eg. destruct (IH id g Eg) as [_ M]. destruct (M n Hn) as (c0 & Hc & Ec). exists c0. split; [apply in_or_app; left; exact Hc|exact Ec].
  - apply members_more. unfold tc_remove. destruct (dget Z.eqb (tc_groups (t_run ops)) id) as [g|] eqn:E; [|exact IH]. apply zget_in in E. destruct (IH id g E) as [Sg M]. rewrite Sg. cbn [static_remove fst tc_groups].
    intros id' g0 I'. apply zset_in in I'. destruct I' as [[= -> ->]|I']; [|exact (IH id' g0 I')]. cbn [g_dynamic g_names]. split; [exact Sg|]. intros m Hm. apply list_remove_incl in Hm. exact (M m Hm).
  - apply members_more. unfold tc_refresh. rewrite static_refresh; [exact IH|]. intros id g I'. apply (IH id g I').
  - intros id g [].
Qed.
Theorem C51_static : forall ops1 id c ops2, good (ops1 ++ TInsert id c :: ops2) -> ct_check c = Ok tt -> static_ops (ops1 ++ TInsert id c :: ops2) ->
  (forall c', In (TInsert id c') ops1 -> ct_name c' <> ct_name c) ->
  (forall id' c', In (TInsert id' c') ops2 -> ct_name c' <> ct_name c) -> (forall id', ~ In (TRemove id' (ct_name c)) ops2) -> ~ In TClear ops2 ->
  anchored (t_run (ops1 ++ TInsert id c :: ops2)) c.
Proof.
  intros ops1 id c ops2. induction ops2 as [|o ops2 IH] using rev_ind; intros G Ec S N1 N2 N3 N4.
  - assert (G0 : good ops1) by (intros x Hx; apply G; apply in_or_app; left; exact Hx). assert (S0 : static_ops ops1) by (intros x Hx; apply S; apply in_or_app; left; exact Hx).
    assert (V : nval (ct_name c)) by (exact (G (TInsert id c) ltac:(apply in_or_app; right; left; reflexivity))).
    pose proof (run_members ops1 S0) as M. destruct (run_inv ops1 G0) as [[A Gv] _]. rewrite run_snoc. cbn [AnchorSpec.t_step].
    destruct (insert_cases (t_run ops1) id c) as (gs & g' & _ & _ & _ & E); [intros g Hg; apply zget_in in Hg; apply (M id g Hg)|]. rewrite E.
    assert (Nin : in_list (ct_name c) (g_names match dget Z.eqb (tc_groups (t_run ops1)) id with Some g => g | None => Group [] None end) = false).
    { destruct (dget Z.eqb (tc_groups (t_run ops1)) id) as [g|] eqn:Eg; [|reflexivity]. apply zget_in in Eg. destruct (in_list (ct_name c) (g_names g)) eqn:Ei; [|reflexivity].
      apply in_list_iff in Ei; [|exact V|exact (Gv id g Eg)]. destruct (M id g Eg) as [_ M']. destruct (M' _ Ei) as (c' & Hc & En). elim (N1 c' Hc En). }
    rewrite Nin. destruct (add_inv _ c A V Ec) as (a' & Ea & _ & Ent). rewrite Ea. exists (ct_name c). cbn [tc_anchors]. apply Ent. left. auto.
  - set (pre := ops1 ++ TInsert id c :: ops2) in *. assert (Ep : ops1 ++ TInsert id c :: ops2 ++ [o] = pre ++ [o]) by (unfold pre; rewrite <- app_assoc; reflexivity). rewrite Ep in *.
    apply good_snoc in G. destruct G as [G Go]. assert (S0 : static_ops pre) by (intros x Hx; apply S; apply in_or_app; left; exact Hx). assert (So := S o ltac:(apply in_or_app; right; left; reflexivity)).
    assert (Io : In o (ops2 ++ [o])) by (apply in_or_app; right; left; reflexivity).
    destruct IH as [k Ik]; try assumption.
    + intros id' c' I'. apply (N2 id'). apply in_or_app. left. exact I'.
    + intros id' I'. apply (N3 id'). apply in_or_app. left. exact I'.
    + intros I'. apply N4. apply in_or_app. left. exact I'.
    + pose proof (run_members pre S0) as M. destruct (run_inv pre G) as [[A Gv] _]. pose proof (a_name _ A _ _ Ik) as Ek. subst k. rewrite run_snoc. exists (ct_name c).
      destruct o as [id' c'|id' period now files|id' n|now files|]; cbn [AnchorSpec.t_step op_good] in *; [|contradiction| | |].
      * destruct (insert_cases (t_run pre) id' c') as (gs & g' & _ & _ & _ & E); [intros g Hg; apply zget_in in Hg; apply (M id' g Hg)|]. rewrite E. cbn [tc_anchors].
        destruct (in_list (ct_name c') _); [exact Ik|]. destruct (ac_add (tc_anchors (t_run pre)) c') as [a'|e] eqn:Ea; [|exact Ik]. pose proof (add_ok _ _ _ Ea) as Ec'.
        destruct (add_inv _ c' A Go Ec') as (a1 & E1 & _ & Ent). assert (a1 = a') by congruence. subst a1. apply Ent. right. split; [|exact Ik]. intros X. exact (N2 id' c' Io (eq_sym X)).
      * unfold tc_remove. destruct (dget Z.eqb (tc_groups (t_run pre)) id') as [g|] eqn:E; [|exact Ik]. apply zget_in in E. destruct (M id' g E) as [Sg _]. rewrite Sg. cbn [static_remove fst tc_anchors].
        destruct (remove_inv _ n A Go) as [_ Ent]. apply Ent. split; [exact Ik|]. intros X. apply (N3 id'). rewrite X. exact Io.
      * unfold tc_refresh. rewrite static_refresh; [exact Ik|]. intros id' g I'. apply (M id' g I').
      * elim N4. exact Io.
Qed.
(** remove and clear *)
Theorem C51_remove : forall ops id n, good (ops ++ [TRemove id n]) -> snd (tc_remove (t_run ops) id n) = Ok tt ->
  forall c, anchored (t_run (ops ++ [TRemove id n])) c <-> anchored (t_run ops) c /\ ct_name c <> n.
Proof.
  intros ops id n G R c. apply good_snoc in G. destruct G as [G Go]. destruct (run_inv ops G) as [[A _] _]. rewrite run_snoc. cbn [AnchorSpec.t_step op_good] in *. unfold tc_remove in *.
  destruct (dget Z.eqb (tc_groups (t_run ops)) id) as [g|]; [|discriminate]. destruct (g_dynamic g); [discriminate|]. cbn [static_remove fst tc_anchors] in *.
  destruct (remove_inv _ n A Go) as [_ Ent]. unfold anchored. cbn [tc_anchors]. split.
  - intros [k I']. apply Ent in I'. destruct I' as [I' N]. split; [exists k; exact I'|]. rewrite (a_name _ A _ _ I'). exact N.
  - intros [[k I'] N]. exists k. apply Ent. split; [exact I'|]. rewrite (a_name _ A _ _ I') in N. exact N.
Qed.
Theorem C51_clear : forall ops c, ~ anchored (t_run (ops ++ [TClear])) c.
Proof. intros ops c. rewrite run_snoc. intros [k []]. Qed.

(** ** One dynamic group follows its directory *)
Definition names_in (fs : list (option C)) (n : name) : Prop := exists c, In (Some c) fs /\ ct_name c = n.
(** the files hold well-formed certificates with different names (unreadable files are allowed) *)
Fixpoint listing_ok (fs : list (option C)) : Prop :=
  match fs with
  | [] => True
  | None :: fs' => listing_ok fs'
  | Some c :: fs' => nval (ct_name c) /\ ct_check c = Ok tt /\ ~ names_in fs' (ct_name c) /\ listing_ok fs'
  end.
Lemma in_list_false : forall n l, nval n -> Forall nval l -> in_list n l = false -> ~ In n l.
Proof. intros n l V F E X. apply in_list_iff in X; [congruence|exact V|exact F]. Qed.
Lemma list_remove_nodup : forall l n, NoDup l -> NoDup (list_remove l n).
Proof. induction l as [|x l IH]; intros n H; [constructor|]. inversion H; subst. cbn [list_remove]. destruct (n_equals x n); [assumption|]. constructor; [|auto]. intros X. apply list_remove_incl in X. contradiction. Qed.
Lemma load_ok : forall fs names a old, listing_ok fs -> ainv a -> Forall nval names -> NoDup names -> Forall nval old -> NoDup old ->
  (forall n, names_in fs n -> In n names -> In n old) -> (forall n, In n old -> In n names) -> (forall n, In n names <-> In n (dkeys (ac_dict a))) ->
  exists names' a' old', load_files fs names a old = (names', a', Ok old') /\ ainv a' /\ Forall nval names' /\ NoDup names' /\ Forall nval old' /\ NoDup old' /\
    (forall n, In n names' <-> In n (dkeys (ac_dict a'))) /\ (forall n, In n names' <-> In n names \/ names_in fs n) /\ (forall n, In n old' <-> In n old /\ ~ names_in fs n).
Proof.
  induction fs as [|f fs IH]; intros names a old L H Vn Nn Vo No Sub On K; cbn [CertModel.load_files].
  - exists names, a, old. split; [reflexivity|]. repeat (split; [assumption|]). split; intros n; split; [auto|intros [X|(c & [] & _)]; exact X|intros X; split; [exact X|intros (c & [] & _)]|tauto].
  - destruct f as [c|]; cbn [listing_ok] in L.
    + destruct L as (Vc & Ec & Nc & L).
      assert (NI : forall n, names_in (Some c :: fs) n <-> n = ct_name c \/ names_in fs n).
      { intros n. unfold names_in. cbn [In]. split; [intros (c0 & [[= <-]|I'] & E); [left; auto|right; eauto]|]. intros [->|(c0 & I' & E)]; eauto. }
      destruct (in_list (ct_name c) names) eqn:Ei; cbn [negb].
      * apply in_list_iff in Ei; [|exact Vc|exact Vn]. assert (Io : In (ct_name c) old) by (apply Sub; [apply NI; left; reflexivity|exact Ei]).
        unfold set_remove. rewrite (proj2 (in_list_iff _ _ Vc Vo) Io).
        assert (R : forall n, In n (list_remove old (ct_name c)) <-> In n old /\ n <> ct_name c) by (intros n; apply list_remove_in; assumption).
        destruct (IH names a (list_remove old (ct_name c)) L H Vn Nn (list_remove_val _ _ Vo) (list_remove_nodup _ _ No)) as (names' & a' & old' & E & A1 & A2 & A3 & A4 & A5 & A6 & A7 & A8).
        { intros n In1 In2. apply R. split; [apply Sub; [apply NI; right; exact In1|exact In2]|intros ->; contradiction]. }
        { intros n X. apply On. apply R in X. apply X. }
        { exact K. }
        exists names', a', old'. split; [exact E|]. repeat (split; [assumption|]). split; intros n.
        -- rewrite A7, NI. split; [tauto|]. intros [X|[->|X]]; auto.
        -- rewrite A8, R, NI. tauto.
      * apply in_list_false in Ei; [|exact Vc|exact Vn]. destruct (add_inv a c H Vc Ec) as (a1 & E1 & Ha & Ent). rewrite E1.
        assert (Sa : set_add names (ct_name c) = names ++ [ct_name c]).
        { unfold set_add. destruct (in_list (ct_name c) names) eqn:X; [|reflexivity]. apply in_list_iff in X; [contradiction|exact Vc|exact Vn]. }
        rewrite Sa.
        destruct (IH (names ++ [ct_name c]) a1 old L Ha) as (names' & a' & old' & E & A1 & A2 & A3 & A4 & A5 & A6 & A7 & A8); try assumption.
        { apply Forall_app. split; [exact Vn|constructor; [exact Vc|constructor]]. }
        { apply nodup_snoc; assumption. }
        { intros n In1 In2. apply in_app_or in In2. destruct In2 as [In2|[<-|[]]]; [|contradiction]. apply Sub; [apply NI; right; exact In1|exact In2]. }
        { intros n X. apply in_or_app. left. apply On. exact X. }
        { intros n. rewrite in_app_iff. cbn [In]. rewrite K, !in_keys. split.
          - intros [[v X]|[<-|[]]]; [|exists c; apply Ent; left; auto]. exists v. apply Ent. right. split; [|exact X]. intros ->. apply Ei. apply K. apply in_keys. eauto.
          - intros [v X]. apply Ent in X. destruct X as [[-> _]|[_ X]]; [right; left; reflexivity|left; eauto]. }
        exists names', a', old'. split; [exact E|]. repeat (split; [assumption|]). split; intros n.
        -- rewrite A7, NI, in_app_iff. cbn [In]. intuition congruence.
        -- rewrite A8, NI. split; [|tauto]. intros [X Y]. split; [exact X|]. intros [->|Z]; [|contradiction]. apply Ei. apply On. exact X.
    + assert (NI : forall n, names_in (None :: fs) n <-> names_in fs n).
      { intros n. unfold names_in. cbn [In]. split; [intros (c0 & [[=]|I'] & E); eauto|]. intros (c0 & I' & E); eauto. }
      destruct (IH names a old L H Vn Nn Vo No) as (names' & a' & old' & E & A1 & A2 & A3 & A4 & A5 & A6 & A7 & A8); try assumption.
      { intros n X. apply Sub. apply NI. exact X. }
      exists names', a', old'. split; [exact E|]. repeat (split; [assumption|]). split; intros n; [rewrite A7, NI; reflexivity|rewrite A8, NI; reflexivity].
Qed.
Lemma drop_ok : forall old names a, ainv a -> Forall nval names -> NoDup names -> Forall nval old -> NoDup old -> (forall n, In n old -> In n names) -> (forall n, In n names <-> In n (dkeys (ac_dict a))) ->
  exists names' a', drop_old old names a = (names', a', Ok tt) /\ ainv a' /\ Forall nval names' /\ NoDup names' /\ (forall n, In n names' <-> In n (dkeys (ac_dict a'))) /\ (forall n, In n names' <-> In n names /\ ~ In n old).
Proof.
  induction old as [|m old IH]; intros names a H Vn Nn Vo No On K; cbn [drop_old].
  - exists names, a. split; [reflexivity|]. repeat (split; [assumption|]). intros n. split; [intros X; split; [exact X|intros []]|tauto].
  - inversion Vo as [|? ? V1 V2]; subst. inversion No as [|? ? N1 N2]; subst. assert (Im : In m names) by (apply On; left; reflexivity).
    unfold set_remove. rewrite (proj2 (in_list_iff _ _ V1 Vn) Im). destruct (remove_inv a m H V1) as [Ha Ent].
    assert (R : forall n, In n (list_remove names m) <-> In n names /\ n <> m) by (intros n; apply list_remove_in; assumption).
    destruct (IH (list_remove names m) (ac_remove a m) Ha (list_remove_val _ _ Vn) (list_remove_nodup _ _ Nn) V2 N2) as (names' & a' & E & A1 & A2 & A3 & A4 & A5).
    { intros n X. apply R. split; [apply On; right; exact X|]. intros ->. contradiction. }
    { intros n. rewrite R, K, !in_keys. split; [intros [[v X] N]; exists v; apply Ent; auto|]. intros [v X]. apply Ent in X. destruct X as [X N]. eauto. }
    exists names', a'. split; [exact E|]. repeat (split; [assumption|]). intros n. rewrite A5, R. cbn [In]. intuition congruence.
Qed.
(** the state with one dynamic group, last read at the time [fst r] as [snd r] *)
Definition follows (id p : Z) (r : Z * list (option C)) (t : container C) : Prop :=
  exists names, tc_groups t = [(id, Group names (Some (p, fst r + p)))] /\ ainv (tc_anchors t) /\ Forall nval names /\ NoDup names /\ (forall n, In n names <-> In n (dkeys (ac_dict (tc_anchors t)))) /\ (forall n, In n names <-> names_in (snd r) n).
Lemma read_ok : forall names a p e now fs, ainv a -> Forall nval names -> NoDup names -> (forall n, In n names <-> In n (dkeys (ac_dict a))) -> e <= now -> listing_ok fs ->
  exists names' a', g_refresh (Group names (Some (p, e))) a now (Ok fs) = (Group names' (Some (p, now + p)), a', Ok tt) /\ ainv a' /\ Forall nval names' /\ NoDup names' /\ (forall n, In n names' <-> In n (dkeys (ac_dict a'))) /\ (forall n, In n names' <-> names_in fs n).
Proof.
  intros names a p e now fs H Vn Nn K Le L. unfold CertModel.g_refresh. cbn [g_dynamic g_names]. replace (now <? e) with false by lia.
  destruct (load_ok fs names a names L H Vn Nn Vn Nn) as (n1 & a1 & old & E & A1 & A2 & A3 & A4 & A5 & A6 & A7 & A8); auto. rewrite E.
  destruct (drop_ok old n1 a1 A1 A2 A3 A4 A5) as (n2 & a2 & E2 & B1 & B2 & B3 & B4 & B5).
  { intros n X. apply A7. left. apply A8 in X. apply X. }
  { exact A6. }
  rewrite E2. exists n2, a2. split; [reflexivity|]. repeat (split; [assumption|]). intros n. rewrite B5, A7, A8. split.
  - intros [[X|X] Y]; [|exact X]. assert (D : names_in fs n \/ ~ names_in fs n).
    { clear. induction fs as [|[c|] fs IH]; [right; intros (c & [] & _)| |].
      - destruct (list_eq_dec (fun a b : comp => ltac:(decide equality; [apply (list_eq_dec Z.eq_dec)|apply Z.eq_dec|apply Z.eq_dec])) (ct_name c) n) as [E|N]; [left; exists c; split; [left; reflexivity|exact E]|].
        destruct IH as [(c0 & I' & E)|N2]; [left; exists c0; split; [right; exact I'|exact E]|]. right. intros (c0 & [[= <-]|I'] & E); [contradiction|apply N2; exists c0; auto].
      - destruct IH as [(c0 & I' & E)|N2]; [left; exists c0; split; [right; exact I'|exact E]|]. right. intros (c0 & [[=]|I'] & E). apply N2; exists c0; auto. }
    destruct D as [D|D]; [exact D|]. elim Y. auto.
  - intros X. split; [right; exact X|]. intros [_ Y]. contradiction.
Qed.
(** The names of the anchors are those of the files of the directory at the last reading: the
    insert, or the last find at least the refresh period after the reading before. *)
Theorem C51_directory : forall id p t0 f0 finds, 0 < p -> 0 <= t0 -> listing_ok f0 -> (forall t f, In (t, f) finds -> listing_ok f) ->
  forall n, (exists c, anchored (t_run (TPath id p t0 (Ok f0) :: map (fun x => TFind (fst x) (fun _ => Ok (snd x))) finds)) c /\ ct_name c = n) <->
    names_in (snd (last_reading p t0 f0 finds)) n.
Proof.
  intros id p t0 f0 finds Hp Ht L0 Lf.
  assert (F : follows id p (last_reading p t0 f0 finds) (t_run (TPath id p t0 (Ok f0) :: map (fun x => TFind (fst x) (fun _ => Ok (snd x))) finds))).
  { induction finds as [|[t f] finds IH] using rev_ind.
    - unfold AnchorSpec.t_run, last_reading. cbn [map fold_left AnchorSpec.t_step]. unfold tc_insertPath. cbn [tc_new tc_groups tc_anchors din dget existsb]. replace (p <=? 0) with false by lia.
      destruct (read_ok [] ac_empty p 0 t0 f0 empty_inv (Forall_nil _) (NoDup_nil _)) as (names & a & E & A1 & A2 & A3 & A4 & A5); [intros n; reflexivity|exact Ht|exact L0|].
      rewrite E. exists names. cbn [fst snd tc_groups tc_anchors dset]. split; [reflexivity|]. auto.
    - assert (IH' := IH (fun t' f' I' => Lf t' f' (in_or_app _ _ _ (or_introl I')))). clear IH. assert (Lt : listing_ok f) by (apply (Lf t); apply in_or_app; right; left; reflexivity).
      rewrite map_app. cbn [map]. rewrite app_comm_cons, run_snoc. unfold last_reading in *. rewrite fold_left_app. cbn [fold_left AnchorSpec.t_step fst snd].
      set (r := fold_left (reading p) finds (t0, f0)) in *. destruct IH' as (names & Eg & A1 & A2 & A3 & A4 & A5). unfold tc_refresh. rewrite Eg. cbn [refresh_groups].
      unfold reading at 1. cbn [fst]. destruct (fst r + p <=? t) eqn:Ec.
      + destruct (read_ok names (tc_anchors (t_run (TPath id p t0 (Ok f0) :: map (fun x => TFind (fst x) (fun _ => Ok (snd x))) finds))) p (fst r + p) t f A1 A2 A3 A4 ltac:(lia) Lt) as (n' & a' & E & B1 & B2 & B3 & B4 & B5).
        rewrite E. exists n'. cbn [fst snd tc_groups tc_anchors]. split; [reflexivity|]. auto.
      + unfold CertModel.g_refresh. cbn [g_dynamic]. replace (t <? fst r + p) with true by lia. exists names. cbn [fst tc_groups tc_anchors]. split; [reflexivity|]. auto. }
  destruct F as (names & _ & A1 & _ & _ & A4 & A5). intros n. rewrite <- A5, A4, in_keys. split.
  - intros (c & [k X] & <-). rewrite (a_name _ A1 _ _ X). eauto.
  - intros [c X]. exists c. split; [exists n; exact X|]. exact (a_name _ A1 _ _ X).
Qed.

(** ** Group IDs *)
Lemma zset_get : forall (V : Type) (d : dict Z V) k v k', dget Z.eqb (dset Z.eqb d k v) k' = if Z.eqb k k' then Some v else dget Z.eqb d k'.
Proof. intros. apply (dset_get Z.eqb (fun _ => True) PsyncProofs.zeqb_iff); try exact Logic.I. unfold dom. apply Forall_forall. intros x _. exact Logic.I. Qed.
Definition dynamic (t : container C) (id : Z) : Prop := exists g, dget Z.eqb (tc_groups t) id = Some g /\ g_dynamic g <> None.
Lemma refresh_get : forall now files gs a gs' a' r id g, refresh_groups ct_name ct_check now files gs a = (gs', a', r) -> dget Z.eqb gs id = Some g -> g_dynamic g <> None ->
  exists g', dget Z.eqb gs' id = Some g' /\ g_dynamic g' <> None.
Proof.
  intros now files. induction gs as [|[id0 g0] gs IH]; intros a gs' a' r id g R E D; [discriminate E|]. cbn [refresh_groups] in R. cbn [dget] in E.
  assert (G : forall g1 a1 r1, g_refresh g0 a now (files id0) = (g1, a1, r1) -> g_dynamic g0 <> None -> g_dynamic g1 <> None).
  { intros g1 a1 r1 G D0. unfold CertModel.g_refresh in G. destruct (g_dynamic g0) as [[p e]|] eqn:Eg; [|congruence]. destruct (now <? e); [injection G as <- _ _; congruence|]. destruct (files id0) as [fs|e1]; [|injection G as <- _ _; discriminate].
    destruct (load_files fs (g_names g0) a (g_names g0)) as [[n1 a2] [old|e2]]; [|injection G as <- _ _; discriminate]. destruct (drop_old old n1 a2) as [[n3 a3] r3]. injection G as <- _ _. discriminate. }
  destruct (g_refresh g0 a now (files id0)) as [[g1 a1] [u|e]] eqn:Eg.
  - destruct (refresh_groups ct_name ct_check now files gs a1) as [[gs2 a2] r2] eqn:R2. injection R as <- _ _. cbn [dget]. destruct (id0 =? id); [injection E as ->; exists g1; split; [reflexivity|eapply G; [reflexivity|exact D]]|]. eapply IH; eassumption.
  - injection R as <- _ _. cbn [dget]. destruct (id0 =? id); [injection E as ->; exists g1; split; [reflexivity|eapply G; [reflexivity|exact D]]|eauto].
Qed.
Lemma dynamic_step : forall t id o, dynamic t id -> o <> TClear -> dynamic (t_step t o) id.
Proof.
  intros t id o (g & E & D) N. destruct o as [id0 c|id0 p now files|id0 n|now files|]; cbn [AnchorSpec.t_step]; [| | | |congruence].
  - unfold tc_insert. destruct (id0 =? id) eqn:Ei.
    + assert (id0 = id) by lia. subst id0. rewrite E. destruct (g_dynamic g) eqn:Dg; [|congruence]. exists g. split; [exact E|congruence].
    + destruct (dget Z.eqb (tc_groups t) id0) as [g0|].
      * destruct (g_dynamic g0); [exists g; auto|]. destruct (static_add _ _ g0 (tc_anchors t) c) as [[g1 a1] r1]. exists g. cbn [fst tc_groups]. rewrite zset_get, Ei. auto.
      * cbn [g_dynamic]. destruct (static_add _ _ _ _ c) as [[g1 a1] r1]. exists g. cbn [fst tc_groups]. rewrite zset_get, Ei, zset_get, Ei. auto.
  - unfold tc_insertPath. destruct (din Z.eqb (tc_groups t) id0) eqn:Dn; [exists g; auto|]. destruct (p <=? 0); [exists g; auto|]. destruct (g_refresh _ _ now files) as [[g1 a1] [u|e]]; [|exists g; auto]. exists g. cbn [fst tc_groups]. rewrite zset_get.
    destruct (id0 =? id) eqn:Ei; [|auto]. assert (id0 = id) by lia. subst id0. unfold din in Dn. rewrite E in Dn. discriminate Dn.
  - unfold tc_remove. destruct (dget Z.eqb (tc_groups t) id0) as [g0|] eqn:E0; [|exists g; auto]. destruct (g_dynamic g0) eqn:D0; [exists g; auto|]. cbn [static_remove fst]. exists g. cbn [tc_groups]. rewrite zset_get.
    destruct (id0 =? id) eqn:Ei; [|auto]. assert (id0 = id) by lia. subst id0. congruence.
  - unfold tc_refresh. destruct (refresh_groups ct_name ct_check now files (tc_groups t) (tc_anchors t)) as [[gs a] r] eqn:R. unfold dynamic. cbn [fst tc_groups]. eapply refresh_get; eassumption.
Qed.
(** Once a path is inserted under a group ID, and until the container is cleared, inserting a
    certificate or another path under that ID raises TrustAnchorContainer.Error, removing from
    it fails, and nothing changes. *)
Theorem C51_group_id : forall t id p now files t' ops, tc_insertPath ct_name ct_check t id p now files = (t', Ok tt) -> ~ In TClear ops ->
  let t2 := fold_left t_step ops t' in
  (forall c, tc_insert ct_name ct_check t2 id c = (t2, Err OtherError)) /\
  (forall p' now' files', tc_insertPath ct_name ct_check t2 id p' now' files' = (t2, Err OtherError)) /\
  (forall n, tc_remove t2 id n = (t2, Err AttributeError)).
Proof.
  intros t id p now files t' ops E N. cbv zeta.
  assert (D : dynamic t' id).
  { unfold tc_insertPath in E. destruct (din Z.eqb (tc_groups t) id); [discriminate E|]. destruct (p <=? 0); [discriminate E|].
    assert (Gd : forall g a r, g_refresh (Group [] (Some (p, 0))) (tc_anchors t) now files = (g, a, r) -> g_dynamic g <> None).
    { intros g a r G. unfold CertModel.g_refresh in G. cbn [g_dynamic g_names] in G. destruct (now <? 0); [injection G as <- _ _; discriminate|]. destruct files as [fs|e1]; [|injection G as <- _ _; discriminate].
      destruct (load_files fs [] (tc_anchors t) []) as [[n1 a2] [old|e2]]; [|injection G as <- _ _; discriminate]. destruct (drop_old old n1 a2) as [[n3 a3] r3]. injection G as <- _ _. discriminate. }
    destruct (g_refresh (Group [] (Some (p, 0))) (tc_anchors t) now files) as [[g a] [u|e]] eqn:G; [|discriminate E]. injection E as <-. exists g. cbn [tc_groups]. rewrite zset_get, Z.eqb_refl. split; [reflexivity|eapply Gd; reflexivity]. }
  assert (D2 : dynamic (fold_left t_step ops t') id).
  { clear E. revert t' D. induction ops as [|o ops IH]; intros t' D; [exact D|]. cbn [fold_left]. apply IH; [intros X; apply N; right; exact X|]. apply dynamic_step; [exact D|]. intros ->. apply N. left. reflexivity. }
  destruct D2 as (g & Eg & Dg). set (t2 := fold_left t_step ops t') in *. split; [|split].
  - intros c. unfold tc_insert. rewrite Eg. destruct (g_dynamic g); [reflexivity|congruence].
  - intros p' now' files'. unfold tc_insertPath, din. rewrite Eg. reflexivity.
  - intros n. unfold tc_remove. rewrite Eg. destruct (g_dynamic g); [reflexivity|congruence].
Qed.
(** Under the ID of a group of certificates, inserting a path raises as well. *)
Theorem C51_group_taken : forall t id g p now files, dget Z.eqb (tc_groups t) id = Some g -> tc_insertPath ct_name ct_check t id p now files = (t, Err OtherError).
Proof. intros t id g p now files E. unfold tc_insertPath, din. rewrite E. reflexivity. Qed.
End C51.

(** ** Concrete cases and what is false.  Certificates are (name, contents). *)
Definition exk (c : name * Z) : name := fst c.
Definition exok (c : name * Z) : res unit := Ok tt.
Definition exf (l : list (option (name * Z))) : Z -> res (list (option (name * Z))) := fun _ => Ok l.
Definition exN1 : name := [c_generic [65]; c_generic [1]].
Definition exN2 : name := [c_generic [65]; c_generic [2]].
Lemma exN_val : nval exN1 /\ nval exN2.
Proof. split; repeat (apply Forall_cons; [split; [repeat constructor; lia|right; split; [right; right; reflexivity|reflexivity]]|]); apply Forall_nil. Qed.
Notation exrun := (t_run exk exok).
Example C51_ex_directory : listing_ok exk exok [None; Some (exN1, 1); Some (exN2, 2)] /\
  last_reading 100 5 [Some (exN1, 1)] [(50, []); (105, [Some (exN2, 1)]); (204, [])] = (105, [Some (exN2, 1)]) /\
  ac_dict (tc_anchors (exrun [TPath 0 100 5 (Ok [Some (exN1, 1)]); TFind 50 (exf []); TFind 105 (exf [Some (exN2, 1)]); TFind 204 (exf [])])) = [(exN2, (exN2, 1))].
Proof.
  split; [|split; vm_compute; reflexivity]. destruct exN_val as [V1 V2]. cbn [listing_ok exk fst]. split; [exact V1|]. split; [reflexivity|]. split.
  - intros (c & [[= <-]|[]] & E). vm_compute in E. discriminate.
  - split; [exact V2|]. split; [reflexivity|]. split; [intros (c & [] & _)|exact Logic.I].
Qed.
Example C51_ex_static : good exk [TInsert 0 (exN1, 1); TInsert 1 (exN2, 2); TFind 10 (exf []); TRemove 1 exN2] /\
  anchored (exrun [TInsert 0 (exN1, 1); TInsert 1 (exN2, 2); TFind 10 (exf []); TRemove 1 exN2]) (exN1, 1) /\
  ~ anchored (exrun [TInsert 0 (exN1, 1); TInsert 1 (exN2, 2); TFind 10 (exf []); TRemove 1 exN2]) (exN2, 2).
Proof.
  destruct exN_val as [V1 V2]. split; [|split].
  - intros o [<-|[<-|[<-|[<-|[]]]]]; cbn [op_good]; [exact V1|exact V2| |exact V2]. intros id fs [= <-] c [].
  - exists exN1. vm_compute. left. reflexivity.
  - intros [k H]. vm_compute in H. destruct H as [H|[]]. discriminate.
Qed.
(** Two files with certificates of one name: the insert of the directory raises KeyError. *)
Example C51_ex_group : snd (tc_insertPath exk exok tc_new 0 100 5 (Ok [Some (exN1, 1)])) = Ok tt.
Proof. vm_compute. reflexivity. Qed.
Theorem C51_duplicate_refuted : ~ (forall fs, (forall c, In (Some c) fs -> nval (exk c) /\ exok c = Ok tt) -> snd (tc_insertPath exk exok tc_new 0 100 5 (Ok fs)) = Ok tt).
Proof.
  intros H. specialize (H [Some (exN1, 1); Some (exN1, 2)]). assert (X : snd (tc_insertPath exk exok tc_new 0 100 5 (Ok [Some (exN1, 1); Some (exN1, 2)])) = Err KeyError) by (vm_compute; reflexivity).
  rewrite X in H. assert (E : Err KeyError = Ok tt); [|discriminate]. apply H. intros c [[= <-]|[[= <-]|[]]]; (split; [apply exN_val|reflexivity]).
Qed.
(** A file that changes but keeps the certificate name is not loaded again: the anchors are
    then not the certificates of the files at the last reading. *)
Theorem C51_changed_file_refuted : ~ (forall p t0 f0 t1 f1, 0 < p -> 0 <= t0 -> t0 + p <= t1 -> listing_ok exk exok f0 -> listing_ok exk exok f1 ->
  forall c, In (Some c) f1 -> anchored (exrun [TPath 0 p t0 (Ok f0); TFind t1 (exf f1)]) c).
Proof.
  intros H. destruct exN_val as [V1 V2]. assert (L : forall v, listing_ok exk exok [Some (exN1, v)]) by (intros v; cbn [listing_ok exk fst]; split; [exact V1|split; [reflexivity|split; [intros (c & [] & _)|exact Logic.I]]]).
  destruct (H 100 0 [Some (exN1, 1)] 100 [Some (exN1, 2)] ltac:(lia) ltac:(lia) ltac:(lia) (L 1) (L 2) (exN1, 2) (or_introl eq_refl)) as [k X]. vm_compute in X. destruct X as [X|[]]. discriminate.
Qed.
(** The anchors are shared between the groups: after an insert in two groups and a remove from
    one of them the certificate is no anchor although it is still in the other group, and
    inserting it there again does nothing. *)
Theorem C51_cross_group_refuted : ~ (forall id id' c, id <> id' -> nval (exk c) -> anchored (exrun [TInsert id c; TInsert id' c; TRemove id' (exk c); TInsert id c]) c).
Proof. intros H. destruct (H 0 1 (exN1, 1) ltac:(lia) (proj1 exN_val)) as [k X]. vm_compute in X. exact X. Qed.
Print Assumptions C51_sound.
Print Assumptions C51_find.
Print Assumptions C51_find_name.
Print Assumptions C51_static.
Print Assumptions C51_remove.
Print Assumptions C51_clear.
Print Assumptions C51_directory.
Print Assumptions C51_duplicate_refuted.
Print Assumptions C51_changed_file_refuted.
Print Assumptions C51_cross_group_refuted.
Print Assumptions C51_group_id.
Print Assumptions C51_group_taken.
