(** * C95: Names as keys of dictionaries *)
From Verif Require Import Base BaseLemmas NameModel NameSpec NameProofs DictModel HashModel HashSpec.

Section Hash.
Variable bhash : bytes -> Z.
Variable red : Z -> Z.
Notation c_hash := (c_hash bhash red). Notation n_hash := (n_hash bhash red). Notation o_hashOf := (o_hashOf bhash red).

(** ** Equal names have the same hash *)
Lemma c_equal_hash : forall a b, c_equals a b = true -> c_hash a = c_hash b.
Proof.
  intros a b H. unfold c_equals in H. unfold HashModel.c_hash. destruct (c_type a =? CT_OTHER) eqn:E.
  - apply andb_prop in H. destruct H as [H H3]. apply andb_prop in H. destruct H as [H1 H2]. rewrite H2. apply zlist_eqb_eq in H1. apply Z.eqb_eq in H3. rewrite H1, H3. reflexivity.
  - apply andb_prop in H. destruct H as [H1 H2]. apply zlist_eqb_eq in H1. apply Z.eqb_eq in H2. rewrite <- H2, E, H1. reflexivity.
Qed.
Lemma fold_equal : forall a b h, n_equals a b = true -> fold_left (fun h c => 37 * h + c_hash c) a h = fold_left (fun h c => 37 * h + c_hash c) b h.
Proof.
  intro a. induction a as [|x a IH]; intros [|y b] h H; try discriminate H; [reflexivity|]. cbn [n_equals] in H. apply andb_prop in H. destruct H as [H1 H2]. cbn [fold_left]. rewrite (c_equal_hash x y H2). exact (IH b _ H1).
Qed.
Lemma equal_hash : forall a b, n_equals a b = true -> n_hash a = n_hash b.
Proof. intros a b H. exact (fold_equal a b 0 H). Qed.
Lemma n_equals_refl : forall n, n_equals n n = true.
Proof.
  intro n. induction n as [|c n IH]; [reflexivity|]. cbn [n_equals]. rewrite IH. unfold c_equals, blob_equals. rewrite (proj2 (zlist_eqb_eq _ _) eq_refl), !Z.eqb_refl. destruct (c_type c =? CT_OTHER); reflexivity.
Qed.

(** ** The hash that an object has kept is that of its components now *)
Definition obj_ok (o : nobj) : Prop := o_hcount o <= o_count o /\ (o_hcount o = o_count o -> forall h, o_hash o = Some h -> h = n_hash (o_comps o)).
Lemma new_ok : forall n, obj_ok (o_new n).
Proof. intro n. split; [cbn; lia|]. intros _ h H. discriminate H. Qed.
Lemma append_ok : forall o n, obj_ok o -> obj_ok (o_append o n).
Proof. intros o n [A B]. split; cbn [o_append o_hcount o_count]; [lia|]. intros X. lia. Qed.
Lemma clear_ok : forall o, obj_ok o -> obj_ok (o_clear o).
Proof. intros o [A B]. split; cbn [o_clear o_hcount o_count]; [lia|]. intros X. lia. Qed.
Lemma set_ok : forall n o, obj_ok o -> obj_ok (o_set o n) /\ o_comps (o_set o n) = n.
Proof.
  intros n o H. unfold o_set. assert (G : forall n o, obj_ok o -> obj_ok (fold_left (fun o c => o_append o [c]) n o) /\ o_comps (fold_left (fun o c => o_append o [c]) n o) = o_comps o ++ n).
  { clear. intro n. induction n as [|c n IH]; intros o H; cbn [fold_left]; [rewrite app_nil_r; auto|]. destruct (IH _ (append_ok o [c] H)) as [A B]. split; [exact A|]. rewrite B. cbn [o_append o_comps]. rewrite <- app_assoc. reflexivity. }
  exact (G n _ (clear_ok o H)).
Qed.
Lemma hash_ok : forall o, obj_ok o -> let r := o_hashOf o in obj_ok (fst r) /\ o_comps (fst r) = o_comps o /\ snd r = n_hash (o_comps o).
Proof.
  intros o [A B]. unfold HashModel.o_hashOf. destruct (Z.eqb_spec (o_hcount o) (o_count o)) as [E|N]; cbn [negb].
  - destruct (o_hash o) as [h|] eqn:H; cbv zeta; cbn [fst snd o_comps]; [split; [split; [exact A|intros X h' Y; rewrite H in Y; injection Y as <-; exact (B E h eq_refl)]|split; [reflexivity|exact (B E h eq_refl)]]|].
    split; [split; [exact A|cbn; intros _ h Y; injection Y as <-; reflexivity]|split; reflexivity].
  - cbn [o_hash]. cbv zeta. cbn [fst snd o_comps]. split; [split; [cbn; lia|cbn; intros _ h Y; injection Y as <-; reflexivity]|split; reflexivity].
Qed.

(** ** Heaps *)
Lemma nth_put : forall l i j o d, nth j (put_at l i o) d = if Nat.eqb j i && Nat.ltb i (length l) then o else nth j l d.
Proof. intro l. induction l as [|x l IH]; intros [|i] [|j] o d; cbn [put_at nth length]; try reflexivity; [rewrite andb_false_r; reflexivity|]. rewrite IH. reflexivity. Qed.
Lemma put_len : forall l i o, length (put_at l i o) = length l.
Proof. intro l. induction l as [|x l IH]; intros [|i] o; cbn [put_at length]; try reflexivity. rewrite IH. reflexivity. Qed.
Lemma put_comps : forall l i o, map o_comps (put_at l i o) = upd (map o_comps l) i (o_comps o).
Proof. intro l. induction l as [|x l IH]; intros [|i] o; cbn [put_at map upd]; try reflexivity. rewrite IH. reflexivity. Qed.
Lemma put_forall : forall (P : nobj -> Prop) l i o, Forall P l -> P o -> Forall P (put_at l i o).
Proof. intros P l. induction l as [|x l IH]; intros [|i] o H Ho; cbn [put_at]; try exact H; inversion H; subst; constructor; auto. Qed.
Lemma upd_same : forall l i, upd l i (nth i l []) = l.
Proof. intro l. induction l as [|x l IH]; intros [|i]; cbn [upd nth]; try reflexivity. rewrite IH. reflexivity. Qed.

Context {V : Type}.
Notation op := (@op V). Notation state := (@state V). Notation exec := (@exec bhash red V). Notation run := (@run bhash red V).
Definition heap_ok (s : state) : Prop := Forall obj_ok (s_heap s).
Definition names (s : state) : list name := map o_comps (s_heap s).
Lemma obj_ok_at : forall s i, heap_ok s -> obj_ok (obj s i).
Proof. intros s i H. unfold obj. destruct (Nat.lt_ge_cases i (length (s_heap s))) as [L|L]; [|rewrite nth_overflow by exact L; apply new_ok]. unfold heap_ok in H. rewrite Forall_forall in H. apply H. apply nth_In. exact L. Qed.
Lemma comps_at : forall (s : state) i, o_comps (obj s i) = nth i (names s) [].
Proof. intros s i. unfold obj, names. symmetry. apply (map_nth o_comps (s_heap s) (o_new []) i). Qed.
(** hash(i): the heap afterwards has the same names *)
Lemma hash_heap : forall s i, heap_ok s -> let s' := set_obj s i (fst (o_hashOf (obj s i))) in heap_ok s' /\ names s' = names s /\ s_dict s' = s_dict s /\ length (s_heap s') = length (s_heap s) /\ snd (o_hashOf (obj s i)) = n_hash (nth i (names s) []).
Proof.
  intros s i H. destruct (hash_ok (obj s i) (obj_ok_at s i H)) as (A & B & C). cbv zeta in *. split; [apply put_forall; assumption|]. split; [unfold names; cbn [set_obj s_heap]; rewrite put_comps, B, comps_at; apply upd_same|]. split; [reflexivity|]. split; [apply put_len|]. rewrite C, comps_at. reflexivity.
Qed.
Lemma exec_heap : forall s o, heap_ok s -> heap_ok (fst (exec s o)) /\ forall d, names (fst (exec s o)) = p_names (fst (spec_exec (Spec (names s) d) o)).
Proof.
  intros s o H. destruct o as [n|i|i n|i j|i|i n|i|i|i v|i]; cbn [HashModel.exec spec_exec fst p_names].
  - split; [apply Forall_app; split; [exact H|constructor; [apply new_ok|constructor]]|]. intro d. unfold names. cbn [s_heap]. rewrite map_app. reflexivity.
  - split; [apply Forall_app; split; [exact H|constructor; [apply new_ok|constructor]]|]. intro d. unfold names at 1. cbn [s_heap]. rewrite map_app. cbn [map o_new o_comps]. rewrite comps_at. reflexivity.
  - split; [apply put_forall; [exact H|apply append_ok; apply obj_ok_at; exact H]|]. intro d. unfold names at 1. cbn [set_obj s_heap]. rewrite put_comps. cbn [o_append o_comps]. rewrite comps_at. reflexivity.
  - split; [apply put_forall; [exact H|apply append_ok; apply obj_ok_at; exact H]|]. intro d. unfold names at 1. cbn [set_obj s_heap]. rewrite put_comps. cbn [o_append o_comps]. rewrite !comps_at. reflexivity.
  - split; [apply put_forall; [exact H|apply clear_ok; apply obj_ok_at; exact H]|]. intro d. unfold names at 1. cbn [set_obj s_heap]. rewrite put_comps. reflexivity.
  - destruct (set_ok n (obj s i) (obj_ok_at s i H)) as [A B]. split; [apply put_forall; [exact H|exact A]|]. intro d. unfold names at 1. cbn [set_obj s_heap]. rewrite put_comps, B. reflexivity.
  - destruct (hash_heap s i H) as (A & B & _). auto.
  - destruct (hash_heap s i H) as (A & B & _). auto.
  - destruct (hash_heap s i H) as (A & B & _). auto.
  - destruct (hash_heap s i H) as (A & B & _). auto.
Qed.
Lemma spec_names : forall (p : spec) (o : op) d, p_names (fst (spec_exec p o)) = p_names (fst (spec_exec (Spec (p_names p) d) o)).
Proof. intros p o d. destruct o; reflexivity. Qed.
Lemma run_heap : forall os, heap_ok (run os) /\ names (run os) = p_names (spec_run os).
Proof.
  intro os. induction os as [|o os IH] using rev_ind; [split; [constructor|reflexivity]|]. destruct IH as [A B]. unfold HashModel.run, spec_run in *. rewrite !fold_left_app. cbn [fold_left]. destruct (exec_heap _ o A) as [C D]. split; [exact C|]. rewrite (D []). rewrite B. symmetry. apply spec_names.
Qed.

(** ** Dictionaries *)
Definition abs (s : state) : dict name V := map (fun e => (nth (e_key e) (names s) [], e_val e)) (s_dict s).
Definition dict_ok (s : state) : Prop := Forall (fun e => (e_key e < length (s_heap s))%nat /\ e_hash e = red (n_hash (nth (e_key e) (names s) []))) (s_dict s).
Section At.
Variables (s : state) (i : nat).
Let h : Z := red (n_hash (nth i (names s) [])).
Let k : name := nth i (names s) [].
Let ab (d : list entry) : dict name V := map (fun e => (nth (e_key e) (names s) [], e_val e)) d.
Lemma hit_iff : forall e, e_hash e = red (n_hash (nth (e_key e) (names s) [])) -> hit s h i e = n_equals (nth (e_key e) (names s) []) k.
Proof.
  intros e E. unfold hit. rewrite !comps_at. fold k. rewrite E. destruct (n_equals (nth (e_key e) (names s) []) k) eqn:Q.
  - rewrite orb_true_r, andb_true_r. apply Z.eqb_eq. unfold h. f_equal. apply equal_hash. exact Q.
  - rewrite orb_false_r. destruct (Nat.eqb_spec (e_key e) i) as [X|X]; [|apply andb_false_r]. exfalso. rewrite X in Q. fold k in Q. rewrite n_equals_refl in Q. discriminate Q.
Qed.
Definition fine (d : list (@entry V)) : Prop := Forall (fun e => (e_key e < length (s_heap s))%nat /\ e_hash e = red (n_hash (nth (e_key e) (names s) []))) d.
Lemma look_ok : forall d, fine d -> look s h i d = dget n_equals (ab d) k.
Proof. intros d Hd. induction Hd as [|e r [_ E] F IH]; [reflexivity|]. unfold ab. cbn [look map dget]. rewrite (hit_iff e E). fold (ab r). rewrite IH. reflexivity. Qed.
Lemma put_ok : forall d, fine d -> forall v, ab (put_entry s h i v d) = dset n_equals (ab d) k v.
Proof. intros d Hd v. induction Hd as [|e r [_ E] F IH]; [reflexivity|]. unfold ab. cbn [put_entry map dset]. rewrite (hit_iff e E). fold (ab r). destruct (n_equals _ k); cbn [map]; fold (ab r); [reflexivity|]. f_equal. exact IH. Qed.
Lemma del_ok : forall d, fine d -> ab (del_entry s h i d) = dremove n_equals (ab d) k.
Proof. intros d Hd. induction Hd as [|e r [_ E] F IH]; [reflexivity|]. unfold ab. cbn [del_entry map dremove]. rewrite (hit_iff e E). fold (ab r). destruct (n_equals _ k); cbn [map]; fold (ab r); [reflexivity|]. f_equal. exact IH. Qed.
Lemma put_fine : forall d, fine d -> forall v, (i < length (s_heap s))%nat -> Forall (fun e => (e_key e < length (s_heap s))%nat /\ e_hash e = red (n_hash (nth (e_key e) (names s) []))) (put_entry s h i v d).
Proof. intros d Hd v L. induction Hd as [|e r [A E] F IH]; cbn [put_entry]; [constructor; [split; [exact L|reflexivity]|constructor]|]. destruct (hit s h i e); constructor; auto. Qed.
Lemma del_fine : forall d, fine d -> Forall (fun e => (e_key e < length (s_heap s))%nat /\ e_hash e = red (n_hash (nth (e_key e) (names s) []))) (del_entry s h i d).
Proof. intros d Hd. induction Hd as [|e r [A E] F IH]; cbn [del_entry]; [constructor|]. destruct (hit s h i e); [exact F|]. constructor; auto. Qed.
End At.
Lemma upd_other : forall l i n j, j <> i -> nth j (upd l i n) [] = nth j l [].
Proof. intro l. induction l as [|x l IH]; intros [|i] n [|j] H; cbn [upd nth]; try reflexivity; [congruence|]. apply IH. congruence. Qed.
(** changing an object that is no key *)
Lemma change_dict : forall s i o, dict_ok s -> ~ In i (map e_key (s_dict s)) -> dict_ok (set_obj s i o) /\ abs (set_obj s i o) = abs s.
Proof.
  intros s i o D N. unfold dict_ok, abs in *. cbn [set_obj s_dict s_heap]. rewrite put_len. assert (X : forall e, In e (s_dict s) -> nth (e_key e) (names (set_obj s i o)) [] = nth (e_key e) (names s) []).
  { intros e I. unfold names. cbn [set_obj s_heap]. rewrite put_comps. apply upd_other. intro E. apply N. rewrite <- E. apply in_map. exact I. }
  split; [rewrite Forall_forall in *; intros e I; rewrite (X e I); exact (D e I)|]. apply map_ext_in. intros e I. rewrite (X e I). reflexivity.
Qed.
Lemma grow_dict : forall (s : state) n, dict_ok s -> dict_ok (State (s_heap s ++ [o_new n]) (s_dict s)) /\ abs (State (s_heap s ++ [o_new n]) (s_dict s)) = abs s.
Proof.
  intros s n D. unfold dict_ok, abs in *. cbn [s_dict s_heap]. rewrite Forall_forall in D. assert (X : forall e, In e (s_dict s) -> nth (e_key e) (names (State (s_heap s ++ [o_new n]) (s_dict s))) [] = nth (e_key e) (names s) []).
  { intros e I. unfold names. cbn [s_heap]. rewrite map_app. apply app_nth1. rewrite map_length. exact (proj1 (D e I)). }
  split; [rewrite Forall_forall; intros e I; rewrite (X e I), app_length; destruct (D e I) as [A B]; split; [lia|exact B]|]. apply map_ext_in. intros e I. rewrite (X e I). reflexivity.
Qed.
Lemma run_dict : forall os, disciplined bhash red os -> dict_ok (run os) /\ abs (run os) = p_dict (spec_run os).
Proof.
  intros os H. induction H as [|os o H IH U C]; [split; [constructor|reflexivity]|]. destruct IH as [D A]. destruct (run_heap os) as [Hh Hn]. change (HashModel.run bhash red os) with (run os) in U, C.
  assert (E1 : run (os ++ [o]) = fst (exec (run os) o)) by (unfold HashModel.run; rewrite fold_left_app; reflexivity). assert (E2 : spec_run (os ++ [o]) = fst (spec_exec (spec_run os) o)) by (unfold spec_run; rewrite fold_left_app; reflexivity).
  rewrite E1, E2. clear E1 E2. set (s := run os) in *. set (p := spec_run os) in *. destruct o as [n|i|i n|i j|i|i n|i|i|i v|i]; cbn [HashModel.exec spec_exec fst p_dict]; cbn [uses changes] in U, C.
  - destruct (grow_dict s n D) as [X Y]. split; [exact X|congruence].
  - destruct (grow_dict s (o_comps (obj s i)) D) as [X Y]. split; [exact X|congruence].
  - destruct (change_dict s i (o_append (obj s i) n) D (C i eq_refl)) as [X Y]. split; [exact X|congruence].
  - destruct (change_dict s i (o_append (obj s i) (o_comps (obj s j))) D (C i eq_refl)) as [X Y]. split; [exact X|congruence].
  - destruct (change_dict s i (o_clear (obj s i)) D (C i eq_refl)) as [X Y]. split; [exact X|congruence].
  - destruct (change_dict s i (o_set (obj s i) n) D (C i eq_refl)) as [X Y]. split; [exact X|congruence].
  - destruct (hash_heap s i Hh) as (_ & B & Ed & El & _). cbv zeta in *. unfold dict_ok, abs in *. rewrite B, Ed, El. auto.
  - destruct (hash_heap s i Hh) as (_ & B & Ed & El & _). cbv zeta in *. unfold dict_ok, abs in *. rewrite B, Ed, El. auto.
  - destruct (hash_heap s i Hh) as (_ & B & Ed & El & Eh). cbv zeta in *. set (s' := set_obj s i _) in *. rewrite Eh. cbn [s_dict]. rewrite <- B. assert (L : (i < length (s_heap s'))%nat) by (rewrite El; apply U; left; reflexivity).
    assert (D' : dict_ok s') by (unfold dict_ok in *; rewrite B, Ed, El; exact D). split; [exact (put_fine s' i (s_dict s') D' v L)|]. etransitivity; [exact (put_ok s' i (s_dict s') D' v)|]. unfold value. rewrite <- Hn, <- A, B. unfold abs. rewrite Ed. reflexivity.
  - destruct (hash_heap s i Hh) as (_ & B & Ed & El & Eh). cbv zeta in *. set (s' := set_obj s i _) in *. rewrite Eh. cbn [s_dict]. rewrite <- B.
    assert (D' : dict_ok s') by (unfold dict_ok in *; rewrite B, Ed, El; exact D). split; [exact (del_fine s' i (s_dict s') D')|]. etransitivity; [exact (del_ok s' i (s_dict s') D')|]. unfold value. rewrite <- Hn, <- A, B. unfold abs. rewrite Ed. reflexivity.
Qed.
Lemma get_ok : forall os i, disciplined bhash red os -> let s := run os in let s' := set_obj s i (fst (o_hashOf (obj s i))) in
  look s' (red (snd (o_hashOf (obj s i)))) i (s_dict s') = dget n_equals (p_dict (spec_run os)) (value (spec_run os) i).
Proof.
  intros os i H. destruct (run_dict os H) as [D A]. destruct (run_heap os) as [Hh Hn]. destruct (hash_heap (run os) i Hh) as (_ & B & Ed & El & Eh). cbv zeta in *. set (s' := set_obj (run os) i _) in *. rewrite Eh, <- B.
  assert (D' : dict_ok s') by (unfold dict_ok in *; rewrite B, Ed, El; exact D). rewrite (look_ok s' i (s_dict s') D'). unfold value. rewrite <- Hn, <- A, B. unfold abs. rewrite Ed. reflexivity.
Qed.
End Hash.

(** ** C95 *)
(** The hash of a Name is a function of its components now, in every history: never of components that it had before *)
Theorem C95_hash : forall bhash red V (os : list (@op V)) i, snd (exec bhash red (run bhash red os) (OHash i)) = RHash (red (n_hash bhash red (value (spec_run os) i))).
Proof. intros bhash red V os i. destruct (run_heap bhash red os) as [A B]. cbn [exec snd]. destruct (hash_heap bhash red _ i A) as (_ & _ & _ & _ & E). rewrite E, B. reflexivity. Qed.
(** Names that are equal have equal hashes *)
Theorem C95_equal_names : forall bhash red V (os : list (@op V)) i j, n_equals (value (spec_run os) i) (value (spec_run os) j) = true ->
  snd (exec bhash red (run bhash red os) (OHash i)) = snd (exec bhash red (run bhash red os) (OHash j)).
Proof. intros bhash red V os i j H. rewrite !C95_hash, (equal_hash bhash red _ _ H). reflexivity. Qed.
(** A dictionary with Names as keys is a map from the values of the names, whatever the hash functions are *)
Theorem C95_dict : forall bhash red V (os : list (@op V)) i, disciplined bhash red os ->
  snd (exec bhash red (run bhash red os) (OGet i)) = RGet (dget n_equals (p_dict (spec_run os)) (value (spec_run os) i)) /\
  snd (exec bhash red (run bhash red os) (ODel i)) = RGet (dget n_equals (p_dict (spec_run os)) (value (spec_run os) i)) /\
  map (fun e => (nth (e_key e) (p_names (spec_run os)) [], e_val e)) (s_dict (run bhash red os)) = p_dict (spec_run os).
Proof.
  intros bhash red V os i H. pose proof (get_ok bhash red os i H) as G. cbv zeta in G. split; [cbn [exec snd]; rewrite G; reflexivity|]. split; [cbn [exec snd]; rewrite G; reflexivity|]. destruct (run_dict bhash red os H) as [_ A]. rewrite <- A. unfold abs. rewrite (proj2 (run_heap bhash red os)). reflexivity.
Qed.
(** What is stored is found again with every other object of an equal name *)
Theorem C95_put_get : forall bhash red V (os : list (@op V)) i j v, disciplined bhash red (os ++ [OPut i v]) -> n_equals (value (spec_run os) i) (value (spec_run os) j) = true ->
  snd (exec bhash red (run bhash red (os ++ [OPut i v])) (OGet j)) = RGet (Some v).
Proof.
  intros bhash red V os i j v H E. rewrite (proj1 (C95_dict bhash red V _ j H)). unfold spec_run in *. rewrite fold_left_app. cbn [fold_left spec_exec fst p_dict p_names value]. f_equal. set (p := fold_left _ os _) in *. unfold value in *. cbn [p_names]. set (a := nth i (p_names p) []) in *. set (b := nth j (p_names p) []) in *.
  assert (Sy : forall x y, c_equals x y = true -> c_equals y x = true).
  { intros x y. unfold c_equals, blob_equals. intro Q. destruct (c_type x =? CT_OTHER) eqn:Ex.
    - apply andb_prop in Q. destruct Q as [Q Q3]. apply andb_prop in Q. destruct Q as [Q1 Q2]. rewrite Q2. apply zlist_eqb_eq in Q1. apply Z.eqb_eq in Q3. rewrite Q1, Q3, (proj2 (zlist_eqb_eq _ _) eq_refl), Z.eqb_refl. reflexivity.
    - apply andb_prop in Q. destruct Q as [Q1 Q2]. apply zlist_eqb_eq in Q1. apply Z.eqb_eq in Q2. rewrite <- Q2, Ex, Q1, (proj2 (zlist_eqb_eq _ _) eq_refl), Z.eqb_refl. reflexivity. }
  assert (Tr : forall x y z, c_equals x y = true -> c_equals x z = c_equals y z).
  { intros x y z Q. unfold c_equals in *. destruct (c_type x =? CT_OTHER) eqn:Ex.
    - apply andb_prop in Q. destruct Q as [Q Q3]. apply andb_prop in Q. destruct Q as [Q1 Q2]. rewrite Q2. apply zlist_eqb_eq in Q1. apply Z.eqb_eq in Q3. rewrite Q1, Q3. reflexivity.
    - apply andb_prop in Q. destruct Q as [Q1 Q2]. apply zlist_eqb_eq in Q1. apply Z.eqb_eq in Q2. rewrite <- Q2, Ex, Q1. reflexivity. }
  assert (R : forall x y k, n_equals x y = true -> n_equals k x = n_equals k y).
  { intros x. induction x as [|c x IH]; intros [|c' y] [|q k] Q; try discriminate Q; try reflexivity. cbn [n_equals] in *. apply andb_prop in Q. destruct Q as [Q1 Q2]. rewrite (IH y k Q1). f_equal. destruct (c_equals q c) eqn:E1; destruct (c_equals q c') eqn:E2; try reflexivity; exfalso.
    - apply Sy in E1. rewrite (Tr _ _ q Q2) in E1. apply Sy in E1. congruence.
    - apply Sy in E2. rewrite <- (Tr _ _ q Q2) in E2. apply Sy in E2. congruence. }
  generalize (p_dict p) as d. intro d. induction d as [|[k w] d IH]; cbn [dset dget]; [rewrite E; reflexivity|]. destruct (n_equals k a) eqn:Ek; cbn [dget]; rewrite <- (R a b k E), Ek; [reflexivity|exact IH].
Qed.

(** ** Examples *)
Definition hx_b (b : bytes) : Z := fold_left (fun h x => 31 * h + x) b 7.
Definition hx_r (z : Z) : Z := z mod 2305843009213693951.
Definition hx_a : name := [c_generic [97]].
Definition hx_os : list (@op Z) := [ONew hx_a; OHash 0; OAppend 0 [c_generic [98]]; OHash 0; ONew [c_generic [97]; c_generic [98]]; OPut 0 5; ONew hx_a; OPut 2 6; OCopy 2; OPut 3 7].
Lemma hx_disc : forall os', (exists r, hx_os = os' ++ r) -> disciplined hx_b hx_r os'.
Proof.
  intros os'. induction os' as [|o os' IH] using rev_ind; intros [r E]; [constructor|]. constructor; [apply IH; exists (o :: r); rewrite E, <- app_assoc; reflexivity| |];
  unfold hx_os in E; repeat (destruct os' as [|? os']; [injection E as <- _; cbn; intros k K; repeat match goal with X : _ \/ _ |- _ => destruct X | X : False |- _ => destruct X | X : Some _ = Some _ |- _ => injection X as <- | X : None = Some _ |- _ => discriminate X end; subst; cbn; try lia; intuition congruence|injection E as <- E]); destruct os'; discriminate E.
Qed.
Example C95_ex : disciplined hx_b hx_r hx_os /\ p_dict (spec_run hx_os) = [([c_generic [97]; c_generic [98]], 5); (hx_a, 7)] /\
  snd (exec hx_b hx_r (run hx_b hx_r hx_os) (OGet 1)) = RGet (Some 5) /\ snd (exec hx_b hx_r (run hx_b hx_r hx_os) (OGet 2)) = RGet (Some 7).
Proof. split; [apply hx_disc; exists []; rewrite app_nil_r; reflexivity|]. split; [reflexivity|]. split; vm_compute; reflexivity. Qed.
(** A Name that is changed while it is a key is not found anymore: not with its old value, not with its new one, and not with the key object itself; and it cannot be removed. *)
Theorem C95_changed_key_refuted : exists os : list (@op Z), let s := run hx_b hx_r os in
  length (s_dict s) = 1%nat /\ value (spec_run os) 0 = value (spec_run os) 1 /\ value (spec_run os) 2 = hx_a /\
  (forall i, (i < 3)%nat -> snd (exec hx_b hx_r s (OGet i)) = RGet None /\ s_dict (fst (exec hx_b hx_r s (ODel i))) = s_dict s) /\ map e_key (s_dict s) = [0%nat].
Proof.
  exists [ONew hx_a; OPut 0 5; OAppend 0 [c_generic [98]]; ONew [c_generic [97]; c_generic [98]]; ONew hx_a]. cbv zeta. split; [reflexivity|]. split; [reflexivity|]. split; [reflexivity|]. split; [|reflexivity].
  intros i L. destruct i as [|[|[|i]]]; [| | |lia]; (split; [vm_compute; reflexivity|vm_compute; reflexivity]).
Qed.

Print Assumptions C95_hash.
Print Assumptions C95_equal_names.
Print Assumptions C95_dict.
Print Assumptions C95_put_get.
Print Assumptions C95_changed_key_refuted.
