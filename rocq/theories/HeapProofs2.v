(** * Proofs about the change counters: the operations. *)
From Verif Require Import Base BaseLemmas TlvModel NameModel WireModel HeapModel HeapProofs.

(** The values stored in the heap, without counts. *)
Definition V (h : heap) (i : nat) : option (own * list nat) := option_map (fun o => (o_own o, map fst (o_kids o))) (nth_error h i).
Lemma deep_V : forall f h i, deep (S f) h i = match V h i with Some (v, ks) => Tree v (map (deep f h) ks) | None => Tree (OName []) [] end.
Proof. intros f h i. unfold V. cbn. destruct (nth_error h i) as [o|]; cbn; auto. rewrite map_map. auto. Qed.
Lemma V_nth : forall h i o, nth_error h i = Some o -> V h i = Some (o_own o, map fst (o_kids o)).
Proof. intros h i o H. unfold V. rewrite H. auto. Qed.
Lemma V_class : forall h i, class_at h i = option_map (fun p => class_of (fst p)) (V h i).
Proof. intros h i. unfold class_at, V. destruct (nth_error h i); auto. Qed.
Lemma V_shape : forall h h' i, same_shape h h' -> V h' i = V h i.
Proof.
  intros h h' i [L S]. unfold V. destruct (nth_error h i) as [o|] eqn:E.
  - destruct (S i o E) as (o' & E' & O & K & _). rewrite E'. cbn. congruence.
  - apply nth_error_None in E. rewrite (proj2 (nth_error_None h' i)); auto. lia.
Qed.
Lemma deep_ext : forall f h h', (forall i, V h' i = V h i) -> forall i, deep f h' i = deep f h i.
Proof.
  induction f as [|f IH]; intros h h' E i; auto. rewrite !deep_V, E. destruct (V h i) as [[v ks]|]; auto.
  f_equal. apply map_ext. intros. apply IH. auto.
Qed.

Definition keep (h h' : heap) : Prop := forall i o', nth_error h' i = Some o' ->
  (exists o, nth_error h i = Some o /\ o_cache o' = o_cache o) \/ (nth_error h i = None /\ o_cache o' = cache0 /\ 0 <= o_count o').
Record G (h h' : heap) : Prop := { g_inv : Inv h'; g_step : step h h'; g_keep : keep h h' }.
Lemma step_none : forall h h' i, step h h' -> nth_error h' i = None -> nth_error h i = None.
Proof. intros h h' i S E. destruct (nth_error h i) as [o|] eqn:Eo; auto. destruct (S i o Eo) as (o' & E' & _). congruence. Qed.
Lemma G_refl : forall h, Inv h -> G h h.
Proof. intros h I. constructor; auto using step_refl. intros i o H. left. eauto. Qed.
Lemma G_trans : forall a b c, G a b -> G b c -> G a c.
Proof.
  intros a b c [I1 S1 K1] [I2 S2 K2]. constructor; eauto using step_trans. intros i o H.
  destruct (K2 i o H) as [(o1 & H1 & E1)|(H1 & E1 & P1)].
  - destruct (K1 i o1 H1) as [(o2 & H2 & E2)|(H2 & E2 & P2)]; [left; exists o2; split; auto; congruence|right].
    split; auto. split; [congruence|]. destruct (S2 i o1 H1) as (o3 & H3 & L & _). assert (o3 = o) by congruence. subst. lia.
  - right. split; [|auto]. eapply step_none; eauto.
Qed.
Lemma G_GS : forall h h', GS h h' -> G h h'.
Proof.
  intros h h' [I S [L H] _]. constructor; auto. intros i o' Ho'. left.
  destruct (nth_error h i) as [o|] eqn:E.
  - destruct (H i o E) as (o2 & E2 & _ & _ & C). exists o. split; auto. congruence.
  - apply nth_error_None in E. assert (i < length h')%nat by (apply nth_error_Some; congruence). lia.
Qed.
Lemma level4 : forall c, (level c < 4)%nat.
Proof. destruct c; cbn; lia. Qed.
Lemma gcc_post_of : forall h i o, Inv h -> nth_error h i = Some o -> gcc_post h i (getChangeCount h i).
Proof. intros h i o I E. eapply gcc_spec; eauto using level4. unfold class_at. rewrite E. eauto. Qed.
Lemma G_gcc : forall h i, Inv h -> G h (fst (getChangeCount h i)).
Proof.
  intros h i I. destruct (nth_error h i) as [o|] eqn:E.
  - apply G_GS. apply (gcc_post_of h i o I E).
  - unfold getChangeCount, gcc. rewrite E. apply G_refl; auto.
Qed.
Lemma V_gcc : forall h i j, Inv h -> V (fst (getChangeCount h i)) j = V h j.
Proof.
  intros h i j I. destruct (nth_error h i) as [o|] eqn:E.
  - apply V_shape, gs_shape. apply (gcc_post_of h i o I E).
  - unfold getChangeCount, gcc. rewrite E. auto.
Qed.

(** ** Replacing one object *)
Lemma G_upd : forall h i o o', Inv h -> nth_error h i = Some o -> le_obj o o' -> o_cache o' = o_cache o ->
  kids_ok h o' -> G h (upd h i o').
Proof.
  intros h i o o' I E L C K.
  assert (ST : step h (upd h i o')).
  { intros j q Hq. destruct (Nat.eq_dec i j) as [<- |N].
    - exists o'. split; [eapply nth_upd_eq; eauto|]. congruence.
    - exists q. rewrite nth_upd_ne; auto using le_obj_refl. }
  assert (KO : forall q, kids_ok h q -> kids_ok (upd h i o') q).
  { intros q [K1 K2]. split.
    - rewrite <- K1. apply map_ext. intros a. eapply class_at_upd; eauto. symmetry. apply L.
    - intros k s Hin. destruct (K2 k s Hin) as (ok & Hk & Sk). destruct (ST k ok Hk) as (ok' & Hk' & LC & _). exists ok'. split; auto; lia. }
  constructor; auto.
  - intros j q Hq. apply KO. destruct (Nat.eq_dec i j) as [<- |N].
    + rewrite (nth_upd_eq _ _ _ _ E) in Hq. congruence.
    + rewrite nth_upd_ne in Hq; eauto.
  - intros j q Hq. left. destruct (Nat.eq_dec i j) as [<- |N].
    + rewrite (nth_upd_eq _ _ _ _ E) in Hq. exists o. split; congruence.
    + rewrite nth_upd_ne in Hq; eauto.
Qed.
Lemma V_upd : forall h i o o' j, nth_error h i = Some o -> V (upd h i o') j = if Nat.eqb j i then Some (o_own o', map fst (o_kids o')) else V h j.
Proof.
  intros h i o o' j E. unfold V. destruct (Nat.eqb_spec j i) as [-> |N].
  - rewrite (nth_upd_eq _ _ _ _ E). auto.
  - rewrite nth_upd_ne; auto.
Qed.

Lemma G_set_own : forall h i o v, Inv h -> nth_error h i = Some o -> class_of v = class_of (o_own o) -> kid_classes v = kid_classes (o_own o) ->
  G h (set_own h i v).
Proof.
  intros h i o v I E C K. unfold set_own. rewrite E. apply (G_upd h i o); auto.
  - split; [cbn; lia|]. split; auto. cbn. lia.
  - destruct (I i o E) as [K1 K2]. split; auto. cbn. congruence.
Qed.
Lemma V_set_own : forall h i v ks w j, V h i = Some (w, ks) -> V (set_own h i v) j = if Nat.eqb j i then Some (v, ks) else V h j.
Proof.
  intros h i v ks w j E. unfold V in E. unfold set_own. destruct (nth_error h i) as [o|] eqn:Eo; [|discriminate].
  injection E as Ew Ek. erewrite V_upd by eauto. cbn. rewrite Ek. auto.
Qed.

Lemma replace_nth_split : forall A (l : list A) p x y, nth_error l p = Some y ->
  exists a b, l = a ++ y :: b /\ length a = p /\ replace_nth l p x = a ++ x :: b.
Proof.
  intros A l p x y H. apply nth_error_split in H as (a & b & -> & L). exists a, b. split; auto. split; auto.
  unfold replace_nth. subst p. rewrite firstn_app, Nat.sub_diag, firstn_all, firstn_O, app_nil_r.
  rewrite skipn_app, Nat.sub_diag, skipn_all. cbn. auto.
Qed.

Lemma G_set_kid : forall h i p k o c, Inv h -> nth_error h i = Some o -> nth_error (kid_classes (o_own o)) p = Some c -> class_at h k = Some c ->
  G h (set_kid h i p k) /\ (forall j, V (set_kid h i p k) j = if Nat.eqb j i then Some (o_own o, replace_nth (map fst (o_kids o)) p k) else V h j).
Proof.
  intros h i p k o c I E P C. unfold set_kid.
  assert (exists ok, nth_error h k = Some ok) as (ok & Ek). { unfold class_at in C. destruct (nth_error h k); eauto; discriminate. }
  pose proof (gcc_post_of h k ok I Ek) as Post. destruct (getChangeCount h k) as [h1 cnt].
  destruct Post as (G1 & C1 & (ok' & Ek' & N) & F). cbn [fst snd] in *.
  assert (HI : nth_error h1 i = Some o).
  { apply F; auto. intros c' Hc'. assert (c' = c) by congruence. subst c'. apply kid_level. eapply nth_error_In; eauto. }
  rewrite HI. set (o' := Obj (o_own o) (replace_nth (o_kids o) p (k, cnt)) (o_count o + 1) (o_cache o)).
  destruct (gs_inv _ _ G1 i o HI) as [K1 K2].
  assert (exists ks, nth_error (o_kids o) p = Some ks) as (ks & Hks).
  { destruct (nth_error (o_kids o) p) eqn:En; eauto. apply nth_error_None in En.
    assert (p < length (kid_classes (o_own o)))%nat by (apply nth_error_Some; congruence).
    apply (f_equal (@length _)) in K1. rewrite !map_length in K1. lia. }
  destruct (replace_nth_split _ _ _ (k, cnt) _ Hks) as (a & b & Ea & La & Er).
  assert (Hc1 : class_at h1 k = Some c) by (rewrite (shape_class _ _ _ (gs_shape _ _ G1)); auto).
  split.
  - eapply G_trans; [apply G_GS; eauto|]. apply (G_upd h1 i o); auto.
    + apply (gs_inv _ _ G1).
    + split; [cbn; lia|]. split; auto. cbn. lia.
    + split; cbn [o' o_kids o_own].
      * rewrite Er. rewrite Ea in K1. rewrite map_app in *. cbn [map] in *. cbn [fst]. rewrite <- K1. f_equal. f_equal.
        rewrite Hc1. assert (nth_error (map Some (kid_classes (o_own o))) p = Some (Some c)) by (apply map_nth_error; auto).
        rewrite <- K1 in H. rewrite nth_error_app2 in H by (rewrite map_length; lia).
        rewrite map_length, La, Nat.sub_diag in H. cbn in H. congruence.
      * intros k' s' Hin. rewrite Er in Hin. apply in_app_or in Hin as [Hin|[[= <- <-]|Hin]].
        -- apply K2. rewrite Ea. apply in_or_app; auto.
        -- exists ok'. split; auto. lia.
        -- apply K2. rewrite Ea. apply in_or_app. right; right; auto.
  - intros j. erewrite V_upd by eauto. cbn [o' o_own o_kids]. rewrite (V_shape _ _ _ (gs_shape _ _ G1)).
    destruct (Nat.eqb j i); auto. f_equal. f_equal. rewrite Er, Ea, !map_app. cbn.
    destruct (replace_nth_split _ (map fst a ++ fst ks :: map fst b) p k (fst ks)) as (a' & b' & E1 & E2 & E3).
    + rewrite nth_error_app2 by (rewrite map_length; lia). rewrite map_length, La, Nat.sub_diag. auto.
    + rewrite E3. assert (L2 : length a' = length (map fst a)) by (rewrite map_length; lia).
      revert E1 L2. clear. revert a'. generalize (map fst a) as u. induction u as [|x u IH]; intros [|y a'] E L; cbn in *; try lia.
      * inversion E; auto.
      * inversion E; subst. f_equal. apply IH; auto.
Qed.

(** ** New objects *)
Lemma G_alloc : forall h v ks, Inv h -> map (class_at h) ks = map Some (kid_classes v) ->
  G h (fst (alloc h v ks)) /\ snd (alloc h v ks) = length h /\
  (forall j, V (fst (alloc h v ks)) j = if Nat.eqb j (length h) then Some (v, ks) else V h j) /\ length (fst (alloc h v ks)) = S (length h).
Proof.
  intros h v ks I K. unfold alloc. cbn [fst snd]. set (o := Obj _ _ _ _).
  assert (ST : step h (h ++ [o])).
  { intros j q Hq. exists q. split; auto using le_obj_refl. rewrite nth_error_app1; auto. apply nth_error_Some; congruence. }
  assert (CA : forall j c, class_at h j = Some c -> class_at (h ++ [o]) j = Some c) by (intros; eapply step_class; eauto).
  assert (NW : nth_error (h ++ [o]) (length h) = Some o) by (rewrite nth_error_app2, Nat.sub_diag by lia; auto).
  assert (SPL : forall j q, nth_error (h ++ [o]) j = Some q -> (j = length h /\ q = o) \/ (j <> length h /\ nth_error h j = Some q)).
  { intros j q Hq. destruct (Nat.eq_dec j (length h)) as [-> |N]; [left; split; congruence|right; split; auto].
    destruct (lt_dec j (length h)) as [L|L]; [rewrite nth_error_app1 in Hq; auto|].
    rewrite nth_error_app2 in Hq by lia. destruct (j - length h)%nat as [|m] eqn:D; [lia|]. cbn in Hq. destruct m; discriminate. }
  split; [|split; [auto|split]].
  - constructor; auto.
    + intros j q Hq. destruct (SPL j q Hq) as [[-> ->]|[N E]].
      * split; cbn [o o_kids o_own].
        -- rewrite map_map. cbn. rewrite <- K. apply map_ext_in. intros a Ha.
           assert (In (class_at h a) (map Some (kid_classes v))) by (rewrite <- K; apply in_map; auto).
           apply in_map_iff in H as (c & E & _). rewrite <- E. apply CA. auto.
        -- intros k s Hin. apply in_map_iff in Hin as (a & [= <- <-] & Ha).
           assert (In (class_at h a) (map Some (kid_classes v))) by (rewrite <- K; apply in_map; auto).
           apply in_map_iff in H as (c & E & _). unfold class_at in E. destruct (nth_error h a) as [ok|] eqn:Ek; [|discriminate].
           destruct (ST a ok Ek) as (ok' & Ek' & L & _). exists ok'. split; auto.
      * destruct (I j q E) as [K1 K2]. split.
        -- rewrite <- K1. apply map_ext_in. intros [k s] Hin. destruct (kids_class h q k s (I j q E) Hin) as (c & Ec & _).
           cbn. rewrite Ec. apply CA; auto.
        -- intros k s Hin. destruct (K2 k s Hin) as (ok & Ek & Sk). destruct (ST k ok Ek) as (ok' & Ek' & L & _). exists ok'. split; auto; lia.
    + intros j q Hq. destruct (SPL j q Hq) as [[-> ->]|[N E]]; [right|left; eauto]. split; [apply nth_error_None; lia|]. split; [auto|cbn; lia].
  - intros j. unfold V. destruct (Nat.eqb_spec j (length h)) as [-> |N].
    + rewrite NW. cbn. rewrite map_map. cbn. rewrite map_id. auto.
    + destruct (nth_error (h ++ [o]) j) as [q|] eqn:Eq.
      * destruct (SPL j q Eq) as [[-> _]|[_ ->]]; [congruence|auto].
      * rewrite (proj2 (nth_error_None h j)); auto. apply nth_error_None in Eq. rewrite app_length in Eq. cbn in Eq. lia.
  - rewrite app_length. cbn. lia.
Qed.

Record new_obj (h : heap) (r : heap * nat) (c : class) : Prop := {
  n_G : G h (fst r); n_V : forall j, (j < length h)%nat -> V (fst r) j = V h j;
  n_len : (length h <= snd r < length (fst r))%nat; n_class : class_at (fst r) (snd r) = Some c;
  n_nth : forall j o, nth_error h j = Some o -> nth_error (fst r) j = Some o; n_clean : clean (fst r) (snd r) }.
Lemma clean_more : forall h h', (forall j o, nth_error h j = Some o -> nth_error h' j = Some o) -> forall j, clean h j -> clean h' j.
Proof. intros h h' P. apply clean_keep. intros j C. destruct C as [o E _ _]. rewrite E. auto. Qed.
Lemma alloc_nth : forall h v ks j o, nth_error h j = Some o -> nth_error (fst (alloc h v ks)) j = Some o.
Proof. intros h v ks j o E. cbn. rewrite nth_error_app1; auto. apply nth_error_Some. congruence. Qed.
Lemma alloc_clean : forall h v ks, (forall k, In k ks -> clean h k) -> clean (fst (alloc h v ks)) (snd (alloc h v ks)).
Proof.
  intros h v ks C. pose proof (alloc_nth h v ks) as P. eapply clean_i.
  - cbn. rewrite nth_error_app2, Nat.sub_diag by lia. reflexivity.
  - cbn [o_kids]. intros k s Hin. apply in_map_iff in Hin as (a & [= <- <-] & Ha). apply (clean_more h); auto.
  - cbn [o_kids]. intros k s Hin. apply in_map_iff in Hin as (a & [= <- <-] & Ha). destruct (C a Ha) as [o E _ _]. exists o. rewrite E. split; auto.
Qed.
(** [h''] has the new objects of [h'] (those from index L on). *)
Definition has_new (L : nat) (h' h'' : heap) : Prop := forall j, (L <= j < length h')%nat -> V h'' j = V h' j.
Lemma V_lt : forall h j p, V h j = Some p -> (j < length h)%nat.
Proof. intros h j p E. unfold V in E. apply nth_error_Some. intros C. rewrite C in E. discriminate. Qed.
Lemma class_lt : forall h j c, class_at h j = Some c -> (j < length h)%nat.
Proof. intros h j c E. unfold class_at in E. apply nth_error_Some. intros C. rewrite C in E. discriminate. Qed.
Lemma new_class_old : forall h r c j d, new_obj h r c -> class_at h j = Some d -> class_at (fst r) j = Some d.
Proof. intros h r c j d N E. eapply step_class; eauto. apply (n_G _ _ _ N). Qed.

Lemma n_class' : forall h h1 n c, new_obj h (h1, n) c -> class_at h1 n = Some c.
Proof. intros h h1 n c N. apply (n_class _ _ _ N). Qed.
Lemma old' : forall h h1 n c j d, new_obj h (h1, n) c -> class_at h j = Some d -> class_at h1 j = Some d.
Proof. intros h h1 n c j d N E. apply (new_class_old _ _ _ _ _ N E). Qed.

Ltac do_alloc I :=
  match goal with |- context [alloc ?h ?v ?ks] =>
    let G := fresh "G" in let S := fresh "S" in let W := fresh "W" in let L := fresh "L" in let x := fresh "x" in let hh := fresh "hh" in
    destruct (G_alloc h v ks I) as (G & S & W & L);
    [ | destruct (alloc h v ks) as [hh x]; cbn [fst snd] in G, S, W, L; subst x ]
  end.

Lemma alloc_leaf : forall h v, Inv h -> kid_classes v = [] -> new_obj h (alloc h v []) (class_of v) /\
  forall h'' f, has_new (length h) (fst (alloc h v [])) h'' -> deep (S f) h'' (snd (alloc h v [])) = Tree v [].
Proof.
  intros h v I K. pose proof (alloc_nth h v []) as An. pose proof (alloc_clean h v [] (fun k F => match F with end)) as Ac.
  do_alloc I; [rewrite K; auto|]. cbn [fst snd] in *. split.
  - constructor; cbn [fst snd]; auto; [|lia|].
    + intros j Hj. rewrite W. destruct (Nat.eqb_spec j (length h)); auto; lia.
    + rewrite V_class, W, Nat.eqb_refl. auto.
  - intros h'' f N. rewrite deep_V, N, W, Nat.eqb_refl by (cbn; lia). auto.
Qed.
Lemma alloc_kl_spec : forall h kl, Inv h -> new_obj h (alloc_kl h kl) CKl /\
  forall h'' f, has_new (length h) (fst (alloc_kl h kl)) h'' -> t_kl (deep (S (S f)) h'' (snd (alloc_kl h kl))) = kl.
Proof.
  intros h kl I. unfold alloc_kl.
  destruct (alloc_leaf h (OName (kl_name kl)) I eq_refl) as [N D]. destruct (alloc h _ []) as [h1 n] eqn:E1.
  assert (n = length h /\ length h1 = S (length h)) as [-> L1].
  { unfold alloc in E1. injection E1 as <- <-. rewrite app_length. cbn. lia. }
  cbn [fst snd] in *. pose proof (g_inv _ _ (n_G _ _ _ N)) as I1.
  pose proof (alloc_nth h1 (OKl (kl_type kl) (kl_data kl)) [length h]) as An.
  assert (Ac : clean (fst (alloc h1 (OKl (kl_type kl) (kl_data kl)) [length h])) (snd (alloc h1 (OKl (kl_type kl) (kl_data kl)) [length h]))).
  { apply alloc_clean. intros k [<-|[]]. apply (n_clean _ _ _ N). }
  do_alloc I1.
  { cbn. rewrite (n_class' _ _ _ _ N). auto. }
  cbn [fst snd] in *. split.
  - constructor; cbn [fst snd]; auto; try lia.
    + eapply G_trans; eauto. apply (n_G _ _ _ N).
    + intros j Hj. rewrite W. destruct (Nat.eqb_spec j (length h1)); [lia|]. apply (n_V _ _ _ N); auto.
    + rewrite V_class, W, Nat.eqb_refl. auto.
    + intros j o E. apply An. apply (n_nth _ _ _ N). auto.
  - intros h'' f HN. rewrite deep_V, HN, W, Nat.eqb_refl by lia. cbn [map].
    rewrite D. { cbn. destruct kl; auto. }
    intros j Hj. rewrite HN, W by lia. destruct (Nat.eqb_spec j (length h1)); auto; lia.
Qed.

Lemma has_new_le : forall L h1 h2 h'', has_new L h2 h'' -> (forall j, (j < length h1)%nat -> V h2 j = V h1 j) -> (length h1 <= length h2)%nat -> has_new L h1 h''.
Proof. intros L h1 h2 h'' H E LL j Hj. rewrite H, E; auto; lia. Qed.
Lemma has_new_ge : forall L L' h' h'', has_new L h' h'' -> (L <= L')%nat -> has_new L' h' h''.
Proof. intros L L' h' h'' H E j Hj. apply H. lia. Qed.
Lemma new_trans : forall h r1 c1 r2 c2, new_obj h r1 c1 -> new_obj (fst r1) r2 c2 -> new_obj h r2 c2.
Proof.
  intros h r1 c1 r2 c2 N1 N2. pose proof (n_len _ _ _ N1). pose proof (n_len _ _ _ N2). constructor.
  - eapply G_trans; [apply (n_G _ _ _ N1)|apply (n_G _ _ _ N2)].
  - intros j Hj. rewrite (n_V _ _ _ N2), (n_V _ _ _ N1); auto; lia.
  - lia.
  - apply (n_class _ _ _ N2).
  - intros j o E. apply (n_nth _ _ _ N2), (n_nth _ _ _ N1). auto.
  - apply (n_clean _ _ _ N2).
Qed.
Lemma new_inv : forall h r c, new_obj h r c -> Inv (fst r).
Proof. intros h r c N. apply (g_inv _ _ (n_G _ _ _ N)). Qed.
(* a new object made of existing ones *)
Lemma alloc_node : forall h v ks, Inv h -> map (class_at h) ks = map Some (kid_classes v) -> (forall k, In k ks -> clean h k) ->
  new_obj h (alloc h v ks) (class_of v) /\ V (fst (alloc h v ks)) (snd (alloc h v ks)) = Some (v, ks) /\
  (length (fst (alloc h v ks)) = S (length h)) /\ snd (alloc h v ks) = length h.
Proof.
  intros h v ks I K Cl. pose proof (alloc_nth h v ks) as An. pose proof (alloc_clean h v ks Cl) as Ac.
  do_alloc I; auto. cbn [fst snd] in *. split; [|split; [|split]]; auto.
  - constructor; cbn [fst snd]; auto; [|lia|].
    + intros j Hj. rewrite W. destruct (Nat.eqb_spec j (length h)); auto; lia.
    + rewrite V_class, W, Nat.eqb_refl. auto.
  - rewrite W, Nat.eqb_refl. auto.
Qed.

Lemma alloc_sig_spec : forall h g, Inv h -> new_obj h (alloc_sig h g) CSig /\
  forall h'' f, has_new (length h) (fst (alloc_sig h g)) h'' -> t_sig (deep (S (S (S f))) h'' (snd (alloc_sig h g))) = g.
Proof.
  intros h g I.
  assert (TWO : forall kl v b K, kid_classes (OSig K b) = [CKl; CVal] -> (K = KRsa \/ K = KEcdsa) ->
    let r := (let '(h, k) := alloc_kl h kl in let '(h, p) := alloc h (OVal v) [] in alloc h (OSig K b) [k; p]) in
    new_obj h r CSig /\ forall h'' f, has_new (length h) (fst r) h'' ->
      exists t1 t2, deep (S (S (S f))) h'' (snd r) = Tree (OSig K b) [t1; t2] /\ t_kl t1 = kl /\ t_val t2 = v).
  { intros kl v b K KC _. destruct (alloc_kl_spec h kl I) as [N1 D1]. destruct (alloc_kl h kl) as [h1 k]. pose proof (new_inv _ _ _ N1) as I1. cbn [fst snd] in *.
    destruct (alloc_leaf h1 (OVal v) I1 eq_refl) as [N2 D2]. destruct (alloc h1 (OVal v) []) as [h2 p]. pose proof (new_inv _ _ _ N2) as I2. cbn [fst snd] in *.
    destruct (alloc_node h2 (OSig K b) [k; p] I2) as (N3 & V3 & L3 & S3).
    { rewrite KC. cbn. rewrite (old' _ _ _ _ _ _ N2 (n_class' _ _ _ _ N1)), (n_class' _ _ _ _ N2). auto. }
    { intros q [<-|[<-|[]]]; [apply (clean_more h1); [apply (n_nth _ _ _ N2)|apply (n_clean _ _ _ N1)]|apply (n_clean _ _ _ N2)]. }
    destruct (alloc h2 (OSig K b) [k; p]) as [h3 s]. cbn [fst snd] in *.
    pose proof (n_len _ _ _ N1). pose proof (n_len _ _ _ N2). pose proof (n_len _ _ _ N3). cbn [fst snd] in *. split.
    - eapply new_trans; [apply N1|]. eapply new_trans; [apply N2|apply N3].
    - intros h'' f HN. rewrite deep_V, HN, V3 by lia. cbn [map]. eexists. eexists. split; [reflexivity|]. split.
      + apply D1. assert (HH3 : has_new (length h) h2 h'') by (eapply has_new_le; [apply HN|intros; apply (n_V _ _ _ N3); auto|lia]).
        eapply has_new_le; [apply HH3|intros; apply (n_V _ _ _ N2); auto|lia].
      + rewrite D2; auto. eapply has_new_le; [eapply has_new_ge; [apply HN|lia]|intros; apply (n_V _ _ _ N3); auto|lia]. }
  destruct g as [kl v b|kl v b|kl b|b|e t b]; unfold alloc_sig.
  - destruct (TWO kl v b KRsa eq_refl) as [N D]; auto. split; auto. intros h'' f HN. destruct (D h'' f HN) as (t1 & t2 & -> & E1 & E2). cbn. congruence.
  - destruct (TWO kl v b KEcdsa eq_refl) as [N D]; auto. split; auto. intros h'' f HN. destruct (D h'' f HN) as (t1 & t2 & -> & E1 & E2). cbn. congruence.
  - destruct (alloc_kl_spec h kl I) as [N1 D1]. destruct (alloc_kl h kl) as [h1 k]. pose proof (new_inv _ _ _ N1) as I1. cbn [fst snd] in *.
    destruct (alloc_node h1 (OSig KHmac b) [k] I1) as (N3 & V3 & L3 & S3).
    { cbn. rewrite (n_class' _ _ _ _ N1). auto. }
    { intros q [<-|[]]. apply (n_clean _ _ _ N1). }
    destruct (alloc h1 (OSig KHmac b) [k]) as [h3 s]. cbn [fst snd] in *.
    pose proof (n_len _ _ _ N1). pose proof (n_len _ _ _ N3). cbn [fst snd] in *. split.
    + eapply new_trans; [apply N1|apply N3].
    + intros h'' f HN. rewrite deep_V, HN, V3 by lia. cbn [map t_sig]. f_equal.
      apply D1. eapply has_new_le; [apply HN|intros; apply (n_V _ _ _ N3); auto|lia].
  - destruct (alloc_leaf h (OSig KDigest b) I eq_refl) as [N D]. split; [apply N|]. intros h'' f HN. rewrite D; auto.
  - destruct (alloc_leaf h (OSig (KGeneric e t) b) I eq_refl) as [N D]. split; [apply N|]. intros h'' f HN. rewrite D; auto.
Qed.

Lemma alloc_data_spec : forall h d, Inv h -> new_obj h (alloc_data h d) CData /\
  forall h'', has_new (length h) (fst (alloc_data h d)) h'' -> data_value h'' (snd (alloc_data h d)) = d.
Proof.
  intros h d I. unfold alloc_data.
  destruct (alloc_leaf h (OName (d_name d)) I eq_refl) as [N1 D1]. destruct (alloc h _ []) as [h1 n]. pose proof (new_inv _ _ _ N1) as I1. cbn [fst snd] in *.
  destruct (alloc_leaf h1 (OMeta (d_meta d)) I1 eq_refl) as [N2 D2]. destruct (alloc h1 _ []) as [h2 m]. pose proof (new_inv _ _ _ N2) as I2. cbn [fst snd] in *.
  destruct (alloc_sig_spec h2 (d_sig d) I2) as [N3 D3]. destruct (alloc_sig h2 (d_sig d)) as [h3 s]. pose proof (new_inv _ _ _ N3) as I3. cbn [fst snd] in *.
  destruct (alloc_node h3 (OData (d_content d)) [n; m; s] I3) as (N4 & V4 & L4 & S4).
  { cbn. rewrite (old' _ _ _ _ _ _ N3 (old' _ _ _ _ _ _ N2 (n_class' _ _ _ _ N1))).
    rewrite (old' _ _ _ _ _ _ N3 (n_class' _ _ _ _ N2)), (n_class' _ _ _ _ N3). auto. }
  { intros q [<-|[<-|[<-|[]]]].
    - apply (clean_more h2); [apply (n_nth _ _ _ N3)|]. apply (clean_more h1); [apply (n_nth _ _ _ N2)|apply (n_clean _ _ _ N1)].
    - apply (clean_more h2); [apply (n_nth _ _ _ N3)|apply (n_clean _ _ _ N2)].
    - apply (n_clean _ _ _ N3). }
  destruct (alloc h3 _ _) as [h4 r]. cbn [fst snd] in *.
  pose proof (n_len _ _ _ N1). pose proof (n_len _ _ _ N2). pose proof (n_len _ _ _ N3). pose proof (n_len _ _ _ N4). cbn [fst snd] in *. split.
  - eapply new_trans; [apply N1|]. eapply new_trans; [apply N2|]. eapply new_trans; [apply N3|apply N4].
  - intros h'' HN. unfold data_value. rewrite deep_V, HN, V4 by lia. cbn [map t_data].
    assert (HH3 : has_new (length h) h3 h'') by (eapply has_new_le; [apply HN|intros; apply (n_V _ _ _ N4); auto|lia]).
    assert (HH2 : has_new (length h) h2 h'') by (eapply has_new_le; [apply HH3|intros; apply (n_V _ _ _ N3); auto|lia]).
    assert (HH1 : has_new (length h) h1 h'') by (eapply has_new_le; [apply HH2|intros; apply (n_V _ _ _ N2); auto|lia]).
    rewrite D1 by auto. rewrite D2 by (eapply has_new_ge; eauto; lia). cbn [t_name t_meta].
    rewrite D3 by (eapply has_new_ge; eauto; lia). destruct d; auto.
Qed.
Lemma alloc_int_spec : forall h v, Inv h -> new_obj h (alloc_int h v) CInt /\
  forall h'', has_new (length h) (fst (alloc_int h v)) h'' -> int_value h'' (snd (alloc_int h v)) (i_nonce v) = v.
Proof.
  intros h v I. unfold alloc_int.
  destruct (alloc_leaf h (OName (i_name v)) I eq_refl) as [N1 D1]. destruct (alloc h _ []) as [h1 n]. pose proof (new_inv _ _ _ N1) as I1. cbn [fst snd] in *.
  destruct (alloc_kl_spec h1 (i_keyLocator v) I1) as [N2 D2]. destruct (alloc_kl h1 _) as [h2 k]. pose proof (new_inv _ _ _ N2) as I2. cbn [fst snd] in *.
  destruct (alloc_leaf h2 (OExcl (i_exclude v)) I2 eq_refl) as [N3 D3]. destruct (alloc h2 _ []) as [h3 e]. pose proof (new_inv _ _ _ N3) as I3. cbn [fst snd] in *.
  destruct (alloc_leaf h3 (ODel (i_hint v)) I3 eq_refl) as [N4 D4]. destruct (alloc h3 _ []) as [h4 d]. pose proof (new_inv _ _ _ N4) as I4. cbn [fst snd] in *.
  destruct (alloc_node h4 (OInt v) [n; k; e; d] I4) as (N5 & V5 & L5 & S5).
  { cbn. rewrite (old' _ _ _ _ _ _ N4 (old' _ _ _ _ _ _ N3 (old' _ _ _ _ _ _ N2 (n_class' _ _ _ _ N1)))).
    rewrite (old' _ _ _ _ _ _ N4 (old' _ _ _ _ _ _ N3 (n_class' _ _ _ _ N2))).
    rewrite (old' _ _ _ _ _ _ N4 (n_class' _ _ _ _ N3)), (n_class' _ _ _ _ N4). auto. }
  { intros q [<-|[<-|[<-|[<-|[]]]]].
    - apply (clean_more h3); [apply (n_nth _ _ _ N4)|]. apply (clean_more h2); [apply (n_nth _ _ _ N3)|]. apply (clean_more h1); [apply (n_nth _ _ _ N2)|apply (n_clean _ _ _ N1)].
    - apply (clean_more h3); [apply (n_nth _ _ _ N4)|]. apply (clean_more h2); [apply (n_nth _ _ _ N3)|apply (n_clean _ _ _ N2)].
    - apply (clean_more h3); [apply (n_nth _ _ _ N4)|apply (n_clean _ _ _ N3)].
    - apply (n_clean _ _ _ N4). }
  destruct (alloc h4 _ _) as [h5 r]. cbn [fst snd] in *.
  pose proof (n_len _ _ _ N1). pose proof (n_len _ _ _ N2). pose proof (n_len _ _ _ N3). pose proof (n_len _ _ _ N4). pose proof (n_len _ _ _ N5). cbn [fst snd] in *. split.
  - eapply new_trans; [apply N1|]. eapply new_trans; [apply N2|]. eapply new_trans; [apply N3|]. eapply new_trans; [apply N4|apply N5].
  - intros h'' HN. unfold int_value. rewrite deep_V, HN, V5 by lia. cbn [map t_int].
    assert (HH4 : has_new (length h) h4 h'') by (eapply has_new_le; [apply HN|intros; apply (n_V _ _ _ N5); auto|lia]).
    assert (HH3 : has_new (length h) h3 h'') by (eapply has_new_le; [apply HH4|intros; apply (n_V _ _ _ N4); auto|lia]).
    assert (HH2 : has_new (length h) h2 h'') by (eapply has_new_le; [apply HH3|intros; apply (n_V _ _ _ N3); auto|lia]).
    assert (HH1 : has_new (length h) h1 h'') by (eapply has_new_le; [apply HH2|intros; apply (n_V _ _ _ N2); auto|lia]).
    rewrite D1 by auto. rewrite D2 by (eapply has_new_ge; eauto; lia). rewrite D3 by (eapply has_new_ge; eauto; lia).
    rewrite D4 by (eapply has_new_ge; eauto; lia). destruct v; auto.
Qed.
