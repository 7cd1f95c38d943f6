(** * Proofs about the change counters: how the heap evolves. *)
From Verif Require Import Base BaseLemmas TlvModel NameModel WireModel HeapModel.

Definition level (c : class) : nat :=
  match c with CKl => 1 | CSig => 2 | CInt => 2 | CData => 3 | _ => 0 end.
Definition kids_ok (h : heap) (o : obj) : Prop :=
  map (fun ks => class_at h (fst ks)) (o_kids o) = map Some (kid_classes (o_own o)) /\
  forall k s, In (k, s) (o_kids o) -> exists ok, nth_error h k = Some ok /\ s <= o_count ok.
Definition Inv (h : heap) : Prop := forall i o, nth_error h i = Some o -> kids_ok h o.
Definition le_obj (o o' : obj) : Prop :=
  o_count o <= o_count o' /\ class_of (o_own o) = class_of (o_own o') /\
  (o_count o = o_count o' -> o_own o = o_own o' /\ o_kids o = o_kids o').
Definition step (h h' : heap) : Prop := forall i o, nth_error h i = Some o -> exists o', nth_error h' i = Some o' /\ le_obj o o'.
Inductive clean (h : heap) (i : nat) : Prop :=
  clean_i o : nth_error h i = Some o -> (forall k s, In (k, s) (o_kids o) -> clean h k) ->
    (forall k s, In (k, s) (o_kids o) -> exists ok, nth_error h k = Some ok /\ o_count ok = s) -> clean h i.
Definition same_shape (h h' : heap) : Prop :=
  length h = length h' /\
  forall i o, nth_error h i = Some o -> exists o', nth_error h' i = Some o' /\ o_own o' = o_own o /\
    map fst (o_kids o') = map fst (o_kids o) /\ o_cache o' = o_cache o.

Lemma le_obj_refl : forall o, le_obj o o.
Proof. intros o. split; [lia|]. split; auto. Qed.
Lemma le_obj_trans : forall a b c, le_obj a b -> le_obj b c -> le_obj a c.
Proof.
  intros a b c (H1 & H2 & H3) (H4 & H5 & H6). split; [lia|]. split; [congruence|].
  intros E. destruct H3 as [? ?]; [lia|]. destruct H6 as [? ?]; [lia|]. split; congruence.
Qed.
Lemma step_refl : forall h, step h h.
Proof. intros h i o H. exists o. split; auto using le_obj_refl. Qed.
Lemma step_trans : forall a b c, step a b -> step b c -> step a c.
Proof. intros a b c H1 H2 i o H. destruct (H1 i o H) as (o' & H' & L1). destruct (H2 i o' H') as (o'' & H'' & L2). exists o''. eauto using le_obj_trans. Qed.
Lemma shape_refl : forall h, same_shape h h.
Proof. intros h. split; auto. intros i o H. exists o. auto. Qed.
Lemma shape_trans : forall a b c, same_shape a b -> same_shape b c -> same_shape a c.
Proof.
  intros a b c [L1 H1] [L2 H2]. split; [congruence|]. intros i o H. destruct (H1 i o H) as (o' & A1 & A2 & A3 & A4).
  destruct (H2 i o' A1) as (o'' & B1 & B2 & B3 & B4). exists o''. repeat split; congruence.
Qed.

(** ** upd *)
Lemma nth_upd_eq : forall h i o x, nth_error h i = Some x -> nth_error (upd h i o) i = Some o.
Proof. induction h as [|y h IH]; intros [|i] o x H; cbn in *; try discriminate; eauto. Qed.
Lemma nth_upd_ne : forall h i j o, i <> j -> nth_error (upd h i o) j = nth_error h j.
Proof. induction h as [|y h IH]; intros [|i] [|j] o H; cbn; auto; try congruence. Qed.
Lemma upd_length : forall h i o, length (upd h i o) = length h.
Proof. induction h as [|y h IH]; intros [|i] o; cbn; auto. Qed.
Lemma upd_same : forall h i o, nth_error h i = Some o -> upd h i o = h.
Proof. induction h as [|y h IH]; intros [|i] o H; cbn in *; try discriminate; [congruence|f_equal; auto]. Qed.
Lemma class_at_upd : forall h i o o' j, nth_error h i = Some o -> class_of (o_own o') = class_of (o_own o) ->
  class_at (upd h i o') j = class_at h j.
Proof.
  intros h i o o' j H E. unfold class_at. destruct (Nat.eq_dec i j) as [<- |N].
  - rewrite (nth_upd_eq _ _ o' _ H), H. congruence.
  - rewrite nth_upd_ne; auto.
Qed.
Lemma step_class : forall h h' i c, step h h' -> class_at h i = Some c -> class_at h' i = Some c.
Proof.
  intros h h' i c S H. unfold class_at in *. destruct (nth_error h i) as [o|] eqn:E; [|discriminate].
  destruct (S i o E) as (o' & E' & _ & C & _). rewrite E'. congruence.
Qed.
Lemma shape_class : forall h h' i, same_shape h h' -> class_at h' i = class_at h i.
Proof.
  intros h h' i [L S]. unfold class_at. destruct (nth_error h i) as [o|] eqn:E.
  - destruct (S i o E) as (o' & E' & O & _). rewrite E', O. auto.
  - apply nth_error_None in E. destruct (nth_error h' i) eqn:E'; auto.
    assert (i < length h')%nat by (apply nth_error_Some; congruence). lia.
Qed.

(** ** deep depends on the shape only *)
Lemma deep_shape : forall f h h' i, same_shape h h' -> deep f h' i = deep f h i.
Proof.
  induction f as [|f IH]; intros h h' i S; cbn; auto. destruct S as [L S].
  destruct (nth_error h i) as [o|] eqn:E.
  - destruct (S i o E) as (o' & E' & O & K & _). rewrite E', O. f_equal.
    rewrite <- (map_map fst (deep f h')), <- (map_map fst (deep f h)), K. apply map_ext. intros k. apply IH. split; auto.
  - apply nth_error_None in E. destruct (nth_error h' i) eqn:E'; auto.
    assert (i < length h')%nat by (apply nth_error_Some; congruence). lia.
Qed.

(** An object that is up to date and has the count it had earlier has the value it had then. *)
Lemma clean_back : forall h h' j, Inv h -> step h h' -> clean h' j -> forall o o', nth_error h j = Some o -> nth_error h' j = Some o' ->
  o_count o = o_count o' -> forall f, deep f h j = deep f h' j.
Proof.
  intros h h' j IV ST C. induction C as [j q Hq HC IH HS]. intros o o' Ho Ho' Ec [|f]; auto.
  cbn. rewrite Ho, Ho'. assert (q = o') by congruence. subst q.
  destruct (ST j o Ho) as (o2 & Ho2 & _ & _ & L). assert (o2 = o') by congruence. subst o2.
  destruct (L Ec) as [E1 E2]. rewrite E1, E2. f_equal. apply map_ext_in. intros [k s] Hin. cbn.
  destruct (HS k s Hin) as (ok' & Hk' & Sk'). destruct (IV j o Ho) as [_ B]. rewrite <- E2 in Hin.
  destruct (B k s Hin) as (ok & Hk & Lk). destruct (ST k ok Hk) as (ok2 & Hk2 & Lc & _).
  assert (ok2 = ok') by congruence. subst ok2. rewrite E2 in Hin. eapply IH; eauto. lia.
Qed.

(** ** getChangeCount *)
Record GS (h h' : heap) : Prop := {
  gs_inv : Inv h'; gs_step : step h h'; gs_shape : same_shape h h';
  gs_clean : forall j, clean h j -> nth_error h' j = nth_error h j }.
Lemma GS_refl : forall h, Inv h -> GS h h.
Proof. intros h I. constructor; auto using step_refl, shape_refl. Qed.
Lemma clean_keep : forall h h', (forall j, clean h j -> nth_error h' j = nth_error h j) -> forall j, clean h j -> clean h' j.
Proof.
  intros h h' K j C. pose proof (K j C) as E. induction C as [j o H HC IH HS].
  apply (clean_i h' j o); [congruence| |].
  - intros k s Hin. apply (IH k s Hin). apply K. exact (HC k s Hin).
  - intros k s Hin. rewrite (K k (HC k s Hin)). eauto.
Qed.
Lemma GS_trans : forall a b c, GS a b -> GS b c -> GS a c.
Proof.
  intros a b c [I1 S1 H1 K1] [I2 S2 H2 K2]. constructor; eauto using step_trans, shape_trans.
  intros j C. rewrite K2, K1; auto. eapply clean_keep; eauto.
Qed.

Definition gcc_post (h : heap) (i : nat) (r : heap * Z) : Prop :=
  GS h (fst r) /\ clean (fst r) i /\ (exists o', nth_error (fst r) i = Some o' /\ o_count o' = snd r) /\
  (forall j o, nth_error h j = Some o -> (forall c, class_at h i = Some c -> (level c < level (class_of (o_own o)))%nat) ->
     nth_error (fst r) j = Some o).

Lemma check_kids_spec : forall g o0 n,
  (forall h k c, Inv h -> class_at h k = Some c -> (level c < n)%nat -> gcc_post h k (g h k)) ->
  forall ks h, Inv h -> (forall k s, In (k, s) ks -> exists c, class_at h k = Some c /\ (level c < n)%nat /\ (level c < level (class_of (o_own o0)))%nat) ->
  forall j0, nth_error h j0 = Some o0 ->
  forall h2 r ch, check_kids g h ks = (h2, r, ch) ->
  GS h h2 /\ nth_error h2 j0 = Some o0 /\ map fst r = map fst ks /\
  (forall k s, In (k, s) r -> clean h2 k /\ exists ok, nth_error h2 k = Some ok /\ o_count ok = s) /\
  (ch = false -> r = ks) /\
  (forall j o, nth_error h j = Some o -> (forall k s c, In (k, s) ks -> class_at h k = Some c -> (level c < level (class_of (o_own o)))%nat) -> nth_error h2 j = Some o).
Proof.
  intros g o0 n Hg ks. induction ks as [|[k s] ks IH]; intros h I Hk j0 Hj h2 r ch; cbn.
  { intros [= <- <- <-]. split; [apply GS_refl; auto|]. repeat (split; auto); destruct H. }
  destruct (Hk k s (or_introl eq_refl)) as (c & Ck & Lk & Lo). specialize (Hg h k c I Ck Lk).
  destruct (g h k) as [h1 cnt]. destruct Hg as (G1 & C1 & (o1 & E1 & N1) & F1). cbn [fst snd] in *.
  assert (Hk' : forall k s, In (k, s) ks -> exists c, class_at h1 k = Some c /\ (level c < n)%nat /\ (level c < level (class_of (o_own o0)))%nat).
  { intros k' s' Hin. destruct (Hk k' s' (or_intror Hin)) as (c' & ? & ? & ?). exists c'. split; auto. eapply step_class; eauto using gs_step. }
  assert (Hj1 : nth_error h1 j0 = Some o0). { apply (F1 j0 o0 Hj). intros c' Hc'. congruence. }
  specialize (IH h1 (gs_inv _ _ G1) Hk' j0 Hj1).
  destruct (check_kids g h1 ks) as [[h2' r'] ch']. intros [= <- <- <-].
  destruct (IH _ _ _ eq_refl) as (G2 & J2 & M2 & R2 & F2 & L2).
  pose proof (gs_clean _ _ G2 k C1) as E2.
  split; [eapply GS_trans; eauto|]. split; auto. split; [cbn; congruence|]. split; [|split].
  - intros k' s' [[= <- <-]|Hin]; auto. split.
    + apply (clean_keep h1 h2' (gs_clean _ _ G2)); auto.
    + exists o1. split; congruence.
  - intros Hch. apply orb_false_iff in Hch as [Hs Hch]. rewrite (F2 Hch). f_equal.
    apply negb_false_iff, Z.eqb_eq in Hs. congruence.
  - intros j o Ho HL. apply L2.
    + apply F1; auto. intros c' Hc'. eapply HL; eauto; left; auto.
    + intros k' s' c' Hin Hc'. eapply HL; [right; eauto|]. rewrite (shape_class _ _ _ (gs_shape _ _ G1)) in Hc'. exact Hc'.
Qed.

Lemma kid_level : forall v c, In c (kid_classes v) -> (level c < level (class_of v))%nat.
Proof. intros v c H. destruct v as [| | | |[]| | | |]; cbn in *; intuition; subst; cbn; lia. Qed.
Lemma kids_class : forall h o k s, kids_ok h o -> In (k, s) (o_kids o) -> exists c, class_at h k = Some c /\ In c (kid_classes (o_own o)).
Proof.
  intros h o k s [K _] Hin. apply (in_map (fun ks => class_at h (fst ks))) in Hin. rewrite K in Hin. cbn in Hin.
  apply in_map_iff in Hin as (c & E & Hc). exists c. auto.
Qed.

Lemma gcc_spec : forall f h i c, Inv h -> class_at h i = Some c -> (level c < f)%nat -> gcc_post h i (gcc f h i).
Proof.
  induction f as [|f IH]; intros h i c I Ci L; [lia|]. cbn.
  unfold class_at in Ci. destruct (nth_error h i) as [o|] eqn:Ho; [|discriminate]. injection Ci as Ci.
  destruct (check_kids (gcc f) h (o_kids o)) as [[h1 ks] ch] eqn:CK.
  assert (KL : forall k s, In (k, s) (o_kids o) -> exists c', class_at h k = Some c' /\ (level c' < f)%nat /\ (level c' < level (class_of (o_own o)))%nat).
  { intros k s Hin. destruct (kids_class h o k s (I i o Ho) Hin) as (c' & E & Hc'). exists c'. apply kid_level in Hc'. subst c. split; auto. split; lia. }
  destruct (check_kids_spec (gcc f) o f (fun h k c' => IH h k c') (o_kids o) h I KL i Ho _ _ _ CK) as (G & J & M & R & F & LV).
  set (o' := Obj (o_own o) ks (if ch then o_count o + 1 else o_count o) (o_cache o)).
  assert (LE : le_obj o o'). { split; [cbn; destruct ch; lia|]. split; auto. cbn. destruct ch; [lia|]. intros _. rewrite F; auto. }
  assert (CA : forall j, class_at (upd h1 i o') j = class_at h1 j) by (intros; eapply class_at_upd; eauto).
  assert (ST : step h1 (upd h1 i o')).
  { intros j q Hq. destruct (Nat.eq_dec i j) as [<- |N].
    - exists o'. split; [eapply nth_upd_eq; eauto|]. assert (q = o) by congruence. subst; auto.
    - exists q. rewrite nth_upd_ne; auto using le_obj_refl. }
  assert (INV : Inv (upd h1 i o')).
  { intros j q Hq. destruct (Nat.eq_dec i j) as [<- |N].
    - rewrite (nth_upd_eq _ _ o' _ J) in Hq. injection Hq as <-. split.
      + rewrite (map_ext _ (fun ks => class_at h (fst ks))).
        2:{ intros a. rewrite CA. apply shape_class, (gs_shape _ _ G). }
        change (o_own o') with (o_own o). change (o_kids o') with ks. destruct (I i o Ho) as [K _]. rewrite <- K.
        rewrite <- (map_map fst (class_at h)), M, map_map. auto.
      + intros k s Hin. destruct (R k s Hin) as [_ (ok & Hk & Sk)].
        destruct (ST k ok Hk) as (ok' & Hk' & LC & _). exists ok'. split; auto. lia.
    - rewrite nth_upd_ne in Hq by auto. destruct (gs_inv _ _ G j q Hq) as [K B]. split.
      + rewrite <- K. apply map_ext. intros a. apply CA.
      + intros k s Hin. destruct (B k s Hin) as (ok & Hk & Sk). destruct (ST k ok Hk) as (ok' & Hk' & LC & _). exists ok'. split; auto. lia. }
  assert (NI : forall k s, In (k, s) ks -> k <> i).
  { intros k s Hin ->. apply (in_map fst) in Hin. rewrite M in Hin. apply in_map_iff in Hin as ([k' s'] & E & Hin). cbn in E. subst k'.
    destruct (KL i s' Hin) as (c' & E & _ & HL). unfold class_at in E. rewrite Ho in E. injection E as E. rewrite E in HL. lia. }
  assert (UC : forall j, clean h j -> nth_error (upd h1 i o') j = nth_error h j).
  { intros j C. destruct (Nat.eq_dec i j) as [<- |N].
    - rewrite (nth_upd_eq _ _ o' _ J), Ho. f_equal. destruct C as [q Hq CK' CS]. assert (q = o) by congruence. subst q.
      assert (ks = o_kids o /\ ch = false) as [-> ->]; [|destruct o; reflexivity].
      assert (HH : forall l h' r' c0, Inv h' -> (forall k s, In (k, s) l -> clean h' k /\ exists ok, nth_error h' k = Some ok /\ o_count ok = s) ->
        (forall k s, In (k, s) l -> exists c', class_at h' k = Some c' /\ (level c' < f)%nat) ->
        snd (fst (check_kids (gcc f) h' l)) = r' -> snd (check_kids (gcc f) h' l) = c0 -> r' = l /\ c0 = false).
      { clear -IH. induction l as [|[k s] l IHl]; intros h' r' c0 I HC HK; cbn; [intros <- <-; auto|].
        destruct (HK k s (or_introl eq_refl)) as (c' & Ck & Lk). destruct (HC k s (or_introl eq_refl)) as [Cl (ok & Hk & Sk)].
        pose proof (IH h' k c' I Ck Lk) as P. destruct (gcc f h' k) as [h1 cnt].
        destruct P as (G1 & C1 & (o1 & E1 & N1) & F1). cbn [fst snd] in *.
        assert (o1 = ok) by (rewrite (gs_clean _ _ G1 k Cl) in E1; congruence). subst o1.
        pose proof (fun r c => IHl h1 r c (gs_inv _ _ G1)) as IHl'. clear IHl. rename IHl' into IHl. destruct (check_kids (gcc f) h1 l) as [[h2 r2] c2]. cbn in *.
        intros <- <-. destruct (IHl r2 c2) as [-> ->]; auto.
        - intros k' s' Hin. destruct (HC k' s' (or_intror Hin)) as [Cl' (ok' & Hk' & Sk')].
          rewrite (gs_clean _ _ G1 k' Cl'). split; [apply (clean_keep h' h1 (gs_clean _ _ G1)); auto|eauto].
        - intros k' s' Hin. destruct (HK k' s' (or_intror Hin)) as (c'' & ? & ?). exists c''. split; auto. eapply step_class; eauto using gs_step.
        - subst. rewrite Z.eqb_refl. auto. }
      apply (HH (o_kids o) h ks ch); auto.
      + intros k s Hin. split; eauto.
      + intros k s Hin. destruct (KL k s Hin) as (c' & ? & ? & _). eauto.
      + rewrite CK. auto.
      + rewrite CK. auto.
    - rewrite nth_upd_ne by auto. apply (gs_clean _ _ G); auto. }
  split; [|split; [|split]]; cbn [fst snd].
  - constructor; auto.
    + eapply step_trans; eauto. apply (gs_step _ _ G).
    + eapply shape_trans; [apply (gs_shape _ _ G)|]. split; [symmetry; apply upd_length|].
      intros j q Hq. destruct (Nat.eq_dec i j) as [<- |N].
      * exists o'. rewrite (nth_upd_eq _ _ o' _ J). assert (q = o) by congruence. subst q. cbn. auto.
      * exists q. rewrite nth_upd_ne; auto.
  - apply (clean_i _ i o'); [eapply nth_upd_eq; eauto| |]; cbn [o_kids o'].
    + intros k s Hin. destruct (R k s Hin) as [C _].
      assert (forall j, clean h1 j -> clean (upd h1 i o') j \/ j = i \/ True) by auto.
      (* i is not below k: levels *)
      assert (LK : forall j, clean h1 j -> forall cj, class_at h1 j = Some cj -> (level cj < level (class_of (o_own o)))%nat -> clean (upd h1 i o') j).
      { clear -J NI I G ST. intros j C. induction C as [j q Hq HC IHc HS]. intros cj Cj Lj.
        assert (j <> i). { intros ->. unfold class_at in Cj. rewrite J in Cj. injection Cj as <-. lia. }
        assert (KL1 : forall k s, In (k, s) (o_kids q) -> exists c', class_at h1 k = Some c' /\ (level c' < level (class_of (o_own o)))%nat).
        { intros k s Hin. destruct (kids_class h1 q k s (gs_inv _ _ G j q Hq) Hin) as (c' & E & Hc'). exists c'. split; auto.
          apply kid_level in Hc'. unfold class_at in Cj. rewrite Hq in Cj. injection Cj as <-. lia. }
        apply (clean_i _ j q).
        - rewrite nth_upd_ne; auto.
        - intros k s Hin. destruct (KL1 k s Hin) as (c' & E & Lc). eapply IHc; eauto.
        - intros k s Hin. destruct (KL1 k s Hin) as (c' & E & Lc). rewrite nth_upd_ne; [eauto|].
          intros <-. unfold class_at in E. rewrite J in E. injection E as <-. lia. }
      apply (in_map fst) in Hin as Hin'. rewrite M in Hin'. apply in_map_iff in Hin' as ([k' s'] & E & Hin'). cbn in E. subst k'.
      destruct (KL k s' Hin') as (c' & E & _ & HL). eapply (LK k C c'); auto.
      rewrite (shape_class _ _ _ (gs_shape _ _ G)). exact E.
    + intros k s Hin. rewrite nth_upd_ne by (apply not_eq_sym; eapply NI; eauto). apply (R k s Hin).
  - exists o'. split; [eapply nth_upd_eq; eauto|reflexivity].
  - intros j q Hq HL. rewrite nth_upd_ne.
    + apply LV; auto. intros k s c' Hin Hc'. destruct (KL k s Hin) as (c2 & E & _ & HL2). assert (c' = c2) by congruence. subst c2.
      specialize (HL (class_of (o_own o))). unfold class_at in HL. rewrite Ho in HL. specialize (HL eq_refl). lia.
    + intros <-. specialize (HL (class_of (o_own o))). unfold class_at in HL. rewrite Ho in HL. specialize (HL eq_refl).
      assert (q = o) by congruence. subst. lia.
Qed.
