(** * Proofs: which calls change an object, which only read it, and what follows for the
    nonce and the full name. *)
From Verif Require Import Base BaseLemmas TlvModel NameModel WireModel HeapModel HeapSpec HeapProofs HeapProofs2 HeapProofs3.

Lemma clean_back_clean : forall h h' j, Inv h -> step h h' -> clean h' j -> forall o o', nth_error h j = Some o -> nth_error h' j = Some o' ->
  o_count o = o_count o' -> clean h j.
Proof.
  intros h h' j IV ST C. induction C as [j q Hq HC IH HS]. intros o o' Ho Ho' Ec.
  assert (q = o') by congruence. subst q.
  destruct (ST j o Ho) as (o2 & Ho2 & _ & _ & L). assert (o2 = o') by congruence. subst o2.
  destruct (L Ec) as [E1 E2]. destruct (IV j o Ho) as [_ B].
  assert (K : forall k s, In (k, s) (o_kids o) -> exists ok ok', nth_error h k = Some ok /\ nth_error h' k = Some ok' /\ o_count ok = s /\ o_count ok = o_count ok').
  { intros k s Hin. destruct (B k s Hin) as (ok & Hk & Lk). destruct (ST k ok Hk) as (ok2 & Hk2 & Lc & _).
    rewrite E2 in Hin. destruct (HS k s Hin) as (ok' & Hk' & Sk'). assert (ok2 = ok') by congruence. subst ok2.
    exists ok, ok'. repeat (split; [auto; lia|]). lia. }
  apply (clean_i h j o); auto.
  - intros k s Hin. destruct (K k s Hin) as (ok & ok' & A1 & A2 & A3 & A4). rewrite E2 in Hin. eapply IH; eauto.
  - intros k s Hin. destruct (K k s Hin) as (ok & ok' & A1 & A2 & A3 & A4). eauto.
Qed.

(** ** The count of an object below *)
Lemma below_count : forall h i k, below h i k -> forall h', Inv h -> step h h' -> clean h' i ->
  forall o o', nth_error h i = Some o -> nth_error h' i = Some o' -> o_count o = o_count o' ->
  exists ok ok', nth_error h k = Some ok /\ nth_error h' k = Some ok' /\ o_count ok = o_count ok'.
Proof.
  intros h i k B. induction B as [i|i j k p Hp B IH]; intros h' IV ST C o o' Ho Ho' Ec.
  - eauto.
  - unfold kid in Hp. rewrite Ho in Hp. destruct (nth_error (o_kids o) p) as [[j' s]|] eqn:E; [|discriminate]. assert (j' = j) by congruence. subst j'.
    apply nth_error_In in E. destruct (clean_back_below h h' i IV ST C o o' Ho Ho' Ec j s E) as (oj & oj' & A1 & A2 & A3 & A4).
    eapply IH; eauto.
Qed.

Section Formats.
Variable encD : Z -> data -> res wire.
Variable decD : Z -> data -> bytes -> res (data * (Z * Z)).
Variable partD : Z -> data -> bytes -> option data.
Variable encI : Z -> list Z -> interest -> res wire.
Variable decI : Z -> interest -> bytes -> res (interest * (Z * Z)).
Variable partI : Z -> interest -> bytes -> option (interest * bool).
Variable sha256 : bytes -> bytes.
Notation exec' := (exec encD decD partD encI decI partI sha256).
Notation run' := (run encD decD partD encI decI partI sha256).
Notation Good' := (Good encD decD encI decI).

(** ** Setters increase the count *)
Definition grows (h h' : heap) (k : nat) : Prop := forall o, nth_error h k = Some o -> exists o', nth_error h' k = Some o' /\ o_count o < o_count o'.
Lemma grows_own : forall h k v, grows h (set_own h k v) k.
Proof. intros h k v o E. rewrite (set_own_at h k o v E). eexists. split; [reflexivity|]. cbn. lia. Qed.
Lemma grows_own2 : forall h j k v w, Inv h -> grows h (set_own (set_own h j v) k w) k.
Proof.
  intros h j k v w I o E. unfold set_own at 2. destruct (nth_error h j) as [oj|] eqn:Ej; [|apply grows_own; auto].
  destruct (Nat.eq_dec j k) as [-> |N].
  - assert (oj = o) by congruence. subst. rewrite (set_own_at _ k (Obj v (o_kids o) (o_count o + 1) (o_cache o))); [|eapply nth_upd_eq; eauto]. eexists; split; [reflexivity|]. cbn. lia.
  - rewrite (set_own_at _ k o); [|rewrite nth_upd_ne; auto]. eexists; split; [reflexivity|]. cbn. lia.
Qed.
Lemma grows_kid : forall h k p n, Inv h -> grows h (set_kid h k p n) k.
Proof.
  intros h k p n I o E. unfold set_kid. pose proof (G_gcc h n I) as GG. destruct (getChangeCount h n) as [h1 c]. cbn [fst] in GG.
  destruct (g_step _ _ GG k o E) as (o1 & E1 & L1 & _). rewrite E1. erewrite nth_upd_eq by eauto. eexists; split; [reflexivity|]. cbn. lia.
Qed.
Lemma grows_new_kid : forall h r c k p, new_obj h r c -> grows h (set_kid (fst r) k p (snd r)) k.
Proof.
  intros h r c k p N o E. pose proof (n_nth _ _ _ N k o E) as E1. apply (grows_kid _ k p _ (new_inv _ _ _ N) o E1).
Qed.
Lemma setter_grows : forall s o k, Good' (s_heap s) -> sets o k -> is_ok (snd (exec' s o)) = true -> grows (s_heap s) (s_heap (fst (exec' s o))) k.
Proof.
  intros s o k Gd Hs. pose proof (proj1 Gd) as I. unfold sets in Hs.
  destruct o; cbn [exec]; try contradiction; subst;
    try (match goal with |- context [guard ?b] => destruct b eqn:Hb; cbn [guard snd fst is_ok]; [|discriminate] end); intros Ho; cbn [unit_op fst s_heap];
    try apply grows_own; try (apply grows_kid; auto).
  - destruct (kid (s_heap s) k 0); [apply grows_own2; auto|apply grows_own].
  - destruct (nth_error (s_heap s) k) as [[[] ks c ca]|] eqn:E; try discriminate. apply grows_own.
  - destruct (nth_error (s_heap s) k) as [[[| | | |[] b| | | |] ks c ca]|] eqn:E; try discriminate;
      (match goal with |- context [guard ?b] => destruct b eqn:Hb; cbn [guard snd fst is_ok] in *; [|discriminate] end);
      pose proof (proj1 (alloc_kl_spec (s_heap s) (t_kl (deep 4 (s_heap s) kl)) I)) as N; pose proof (grows_new_kid _ _ _ k 0%nat N) as R; destruct (alloc_kl (s_heap s) _); exact R.
  - destruct (nth_error (s_heap s) k) as [[[| | | |[] b| | | |] ks c ca]|] eqn:E; try discriminate;
      (match goal with |- context [guard ?b] => destruct b eqn:Hb; cbn [guard snd fst is_ok] in *; [|discriminate] end);
      pose proof (proj1 (alloc_leaf (s_heap s) (OVal (t_val (deep 4 (s_heap s) vp))) I eq_refl)) as N; pose proof (grows_new_kid _ _ _ k 1%nat N) as R; destruct (alloc (s_heap s) _ _); exact R.
  - destruct (nth_error (s_heap s) k) as [[[| | | |[] b| | | |] ks c ca]|] eqn:E; try discriminate. apply grows_own.
  - pose proof (proj1 (alloc_leaf (s_heap s) (OMeta (t_meta (deep 4 (s_heap s) m))) I eq_refl)) as N. pose proof (grows_new_kid _ _ _ k 1%nat N) as R. destruct (alloc (s_heap s) _ _); exact R.
  - pose proof (proj1 (alloc_sig_spec (s_heap s) (t_sig (deep 4 (s_heap s) s0)) I)) as N. pose proof (grows_new_kid _ _ _ k 2%nat N) as R. destruct (alloc_sig (s_heap s) _); exact R.
  - pose proof (proj1 (alloc_kl_spec (s_heap s) (t_kl (deep 4 (s_heap s) kl)) I)) as N. pose proof (grows_new_kid _ _ _ k 1%nat N) as R. destruct (alloc_kl (s_heap s) _); exact R.
  - pose proof (proj1 (alloc_leaf (s_heap s) (OExcl (t_excl (deep 4 (s_heap s) e))) I eq_refl)) as N. pose proof (grows_new_kid _ _ _ k 2%nat N) as R. destruct (alloc (s_heap s) _ _); exact R.
  - pose proof (proj1 (alloc_leaf (s_heap s) (ODel (t_del (deep 4 (s_heap s) d))) I eq_refl)) as N. pose proof (grows_new_kid _ _ _ k 3%nat N) as R. destruct (alloc (s_heap s) _ _); exact R.
Qed.

(** An accepted setter on an object below [i] changes the count that getChangeCount returns. *)
Lemma setter_count : forall s o i k oi, Good' (s_heap s) -> seen_call s o -> sets o k -> is_ok (snd (exec' s o)) = true -> below (s_heap s) i k ->
  nth_error (s_heap s) i = Some oi -> forall h', Inv h' -> step (s_heap (fst (exec' s o))) h' -> clean h' i -> forall o', nth_error h' i = Some o' -> o_count oi < o_count o'.
Proof.
  intros s o i k oi Gd Sc Hs Ok B Ei h' I' ST C o' E'. pose proof (exec_good encD decD partD encI decI partI sha256 s o Gd Sc) as [G1 S1].
  pose proof (step_trans _ _ _ S1 ST) as S2. destruct (S2 i oi Ei) as (o2 & E2 & L2 & _). assert (o2 = o') by congruence. subst o2.
  destruct (Z.eq_dec (o_count oi) (o_count o')) as [Eq|]; [|lia].
  destruct (below_count _ _ _ B h' (proj1 Gd) S2 C oi o' Ei E' Eq) as (ok & ok' & A1 & A2 & A3).
  destruct (setter_grows s o k Gd Hs Ok ok A1) as (ok1 & A4 & A5). destruct (ST k ok1 A4) as (ok2 & A6 & A7 & _). assert (ok2 = ok') by congruence. subst. lia.
Qed.

(** ** The nonce after changes *)
Notation NK' := (NK).
Lemma nonce_kept_or_none : forall h h' i o n, Good' h -> nth_error h i = Some o -> clean h i -> ca_nonce (o_cache o) = n -> ca_nonceSeen (o_cache o) = o_count o ->
  Good' h' -> step h h' -> NK i h h' -> forall b, nonce_now h' i = Some b ->
  n = Some b /\ clean h' i /\ exists o', nth_error h' i = Some o' /\ o_count o' = o_count o.
Proof.
  intros h h' i o n Gd E C En Es Gd' ST NKh b Hb. destruct (NKh o E) as (o' & E' & Hn).
  rewrite (nonce_now_spec h' i o' E' (proj1 Gd')) in Hb. destruct (Z.eqb_spec (ca_nonceSeen (o_cache o')) (snd (getChangeCount h' i))) as [Eq|]; [|discriminate].
  destruct Hn as [[H1 H2]|H1]; [|congruence]. split; [congruence|].
  destruct (gcc_post_of h' i o' (proj1 Gd') E') as (GSx & Cx & (o2 & E2 & Ec2) & _). destruct (ST i o E) as (o3 & E3 & L3 & _). assert (o3 = o') by congruence. subst o3.
  destruct (gs_step _ _ GSx i o' E') as (o4 & E4 & L4 & _). assert (o4 = o2) by congruence. subst o4.
  assert (o_count o' = o_count o2) by lia. split; [|exists o'; split; auto; lia].
  eapply clean_back_clean; [apply Gd'|apply GSx|apply Cx|eauto|eauto|lia].
Qed.

(** ** Calls that only read *)
Definition RO (h h' : heap) : Prop := forall j o, clean h j -> nth_error h j = Some o -> exists o', nth_error h' j = Some o' /\
  o_own o' = o_own o /\ o_kids o' = o_kids o /\ o_count o' = o_count o /\
  (ca_nonceSeen (o_cache o) = o_count o -> ca_nonceSeen (o_cache o') = ca_nonceSeen (o_cache o) /\ ca_nonce (o_cache o') = ca_nonce (o_cache o)).
Lemma RO_refl : forall h, RO h h.
Proof. intros h j o C E. exists o. repeat (split; auto). Qed.
Lemma RO_clean : forall h h', RO h h' -> forall j, clean h j -> clean h' j.
Proof.
  intros h h' R j C. induction C as [j o E HC IH HS]. destruct (R j o (clean_i h j o E HC HS) E) as (o' & E' & _ & Ek & _).
  apply (clean_i h' j o'); auto; rewrite Ek.
  - intros k s Hin. eapply IH; eauto.
  - intros k s Hin. destruct (HS k s Hin) as (ok & Eok & Es). destruct (R k ok (HC k s Hin) Eok) as (ok' & Eok' & _ & _ & Ec & _). exists ok'. split; auto. lia.
Qed.
Lemma RO_trans : forall a b c, RO a b -> RO b c -> RO a c.
Proof.
  intros a b c R1 R2 j o C E. destruct (R1 j o C E) as (o1 & E1 & A1 & A2 & A3 & A4). destruct (R2 j o1 (RO_clean _ _ R1 j C) E1) as (o2 & E2 & B1 & B2 & B3 & B4).
  exists o2. split; auto. split; [congruence|]. split; [congruence|]. split; [congruence|]. intros Hs. destruct (A4 Hs) as [A5 A6]. destruct B4 as [B5 B6]; [congruence|]. split; congruence.
Qed.
Lemma RO_GS : forall h h', GS h h' -> RO h h'.
Proof. intros h h' GSx j o C E. rewrite (gs_clean _ _ GSx j C). exists o. repeat (split; auto). Qed.
Lemma RO_gcc : forall h j, Inv h -> RO h (fst (getChangeCount h j)).
Proof.
  intros h j I. destruct (nth_error h j) as [o|] eqn:E.
  - apply RO_GS, (gcc_post_of h j o I E).
  - unfold getChangeCount. cbn. rewrite E. apply RO_refl.
Qed.
Lemma RO_cache : forall h i ca, (forall o, nth_error h i = Some o -> ca_nonceSeen (o_cache o) = o_count o -> ca_nonceSeen ca = ca_nonceSeen (o_cache o) /\ ca_nonce ca = ca_nonce (o_cache o)) -> RO h (set_cache h i ca).
Proof.
  intros h i ca H j o C E. unfold set_cache. destruct (nth_error h i) as [oi|] eqn:Ei; [|apply RO_refl; auto].
  destruct (Nat.eq_dec i j) as [-> |N].
  - assert (oi = o) by congruence. subst. rewrite (nth_upd_eq _ _ _ _ E). eexists. split; [reflexivity|]. cbn. repeat (split; auto). all: apply (H o eq_refl); auto.
  - rewrite nth_upd_ne by auto. apply RO_refl; auto.
Qed.
Lemma RO_more : forall h h', (forall j o, nth_error h j = Some o -> nth_error h' j = Some o) -> RO h h'.
Proof. intros h h' H j o C E. exists o. repeat (split; auto). Qed.
Lemma RO_new : forall h r c, new_obj h r c -> RO h (fst r).
Proof. intros h r c N. apply RO_more. apply (n_nth _ _ _ N). Qed.
Lemma RO_gdwe : forall h j, Inv h -> RO h (fst (fst (getDefaultWireEncoding h j))).
Proof.
  intros h j I. unfold getDefaultWireEncoding. pose proof (RO_gcc h j I) as K. destruct (getChangeCount h j) as [h1 c]. cbn [fst] in *.
  destruct (nth_error h1 j) as [o|] eqn:E; [|exact K]. destruct (negb _); cbn [fst]; [|exact K].
  eapply RO_trans; [exact K|]. apply RO_cache. intros o' E' _. assert (o' = o) by congruence. subst. auto.
Qed.
Lemma RO_sdwe : forall h j w f, Inv h -> RO h (setDefaultWireEncoding h j w f).
Proof.
  intros h j w f I. unfold setDefaultWireEncoding. pose proof (RO_gcc h j I) as K. destruct (getChangeCount h j) as [h1 c]. cbn [fst] in *.
  destruct (nth_error h1 j) as [o|] eqn:E; [|exact K]. eapply RO_trans; [exact K|]. apply RO_cache. intros o' E' _. assert (o' = o) by congruence. subst. auto.
Qed.
Lemma RO_getNonce : forall h j, Inv h -> RO h (fst (int_getNonce h j)).
Proof.
  intros h j I. unfold int_getNonce. pose proof (RO_gcc h j I) as K. destruct (nth_error h j) as [o0|] eqn:E0.
  - destruct (gcc_post_of h j o0 I E0) as (_ & _ & (o2 & E2 & Ec2) & _). destruct (getChangeCount h j) as [h1 c]. cbn [fst snd] in *. rewrite E2.
    destruct (Z.eqb_spec (ca_nonceSeen (o_cache o2)) c) as [Eq|Ne]; cbn [negb fst]; [exact K|]. eapply RO_trans; [exact K|]. unfold set_nonce. rewrite E2.
    apply RO_cache. intros o' E' Hs. assert (o' = o2) by congruence. subst. contradiction.
  - destruct (getChangeCount h j) as [h1 c] eqn:Eg. unfold getChangeCount in Eg. cbn in Eg. rewrite E0 in Eg. inversion Eg; subst. rewrite E0. exact K.
Qed.
Lemma RO_set_full : forall h i fn, RO h (set_full h i fn).
Proof.
  intros h i fn. unfold set_full. destruct (nth_error h i) as [o|] eqn:E; [|apply RO_refl]. apply RO_cache. intros o' E' _. assert (o' = o) by congruence. subst. auto.
Qed.
Lemma RO_encD : forall s j f, Good' (s_heap s) -> is_data (s_heap s) j -> RO (s_heap s) (s_heap (fst (data_wireEncode encD s j f))).
Proof.
  intros s j f Gd D. destruct (class_data _ _ D) as (o & E & _). unfold data_wireEncode. pose proof (RO_gdwe (s_heap s) j (proj1 Gd)) as K.
  destruct (getDefaultWireEncoding (s_heap s) j) as [[h1 w] wf] eqn:Eg. cbn [fst] in K.
  pose proof (gdwe_spec encD decD encI decI (s_heap s) j o Gd E h1 w wf Eg) as (G1 & _).
  assert (X : RO (s_heap s) (s_heap (fst (match encD f (data_value h1 j) with Err e => (State h1 (s_default s), Err e) | Ok w' => (State (if f =? s_default s then setDefaultWireEncoding h1 j (Some w') (Some f) else h1) (s_default s), Ok w') end)))).
  { destruct (encD f (data_value h1 j)); [|exact K]. destruct (f =? s_default s); [|exact K]. cbn. eapply RO_trans; [exact K|]. apply RO_sdwe, G1. }
  destruct w as [w|]; [|exact X]. destruct (fmt_eqb wf f); [exact K|exact X].
Qed.
Lemma RO_encI : forall s j f rnd, Good' (s_heap s) -> is_int (s_heap s) j -> RO (s_heap s) (s_heap (fst (int_wireEncode encI s j f rnd))).
Proof.
  intros s j f rnd Gd D. destruct (class_int _ _ D) as (o & E & _). unfold int_wireEncode. pose proof (RO_gdwe (s_heap s) j (proj1 Gd)) as K.
  destruct (getDefaultWireEncoding (s_heap s) j) as [[h1 w] wf] eqn:Eg. cbn [fst] in K.
  pose proof (gdwe_spec encD decD encI decI (s_heap s) j o Gd E h1 w wf Eg) as (G1 & S1 & _). destruct (S1 j o E) as (o1 & E1 & _).
  assert (X : RO (s_heap s) (s_heap (fst (let '(h2, n) := int_getNonce h1 j in match encI f rnd (int_value h2 j n) with Err e => (State h2 (s_default s), Err e) | Ok w' => (State (if f =? s_default s then setDefaultWireEncoding h2 j (Some w') (Some f) else h2) (s_default s), Ok w') end)))).
  { pose proof (RO_getNonce h1 j (proj1 G1)) as K1. destruct (int_getNonce h1 j) as [h2 n] eqn:En. cbn [fst] in K1.
    destruct (getNonce_spec encD decD encI decI h1 j o1 G1 E1 h2 n En) as (G2 & _). pose proof (RO_trans _ _ _ K K1) as K2.
    destruct (encI f rnd (int_value h2 j n)); [|exact K2]. destruct (f =? s_default s); [|exact K2]. cbn. eapply RO_trans; [exact K2|]. apply RO_sdwe, G2. }
  destruct w as [w|]; [|exact X]. destruct (fmt_eqb wf f); [exact K|exact X].
Qed.
Lemma RO_full : forall s j f, Good' (s_heap s) -> is_data (s_heap s) j -> RO (s_heap s) (s_heap (fst (data_getFullName encD sha256 s j f))).
Proof.
  intros s j f Gd D. destruct (class_data _ _ D) as (o & E & _). unfold data_getFullName. pose proof (RO_gdwe (s_heap s) j (proj1 Gd)) as K.
  destruct (getDefaultWireEncoding (s_heap s) j) as [[h1 w] wf] eqn:Eg. cbn [fst] in K.
  pose proof (gdwe_spec encD decD encI decI (s_heap s) j o Gd E h1 w wf Eg) as (G1 & S1 & _).
  assert (X : RO (s_heap s) (s_heap (fst (compute_fullName encD sha256 (State h1 (s_default s)) j f)))).
  { unfold compute_fullName. assert (D1 : is_data (s_heap (State h1 (s_default s))) j) by (eapply step_class; eauto).
    pose proof (RO_encD (State h1 (s_default s)) j f G1 D1) as K1. destruct (data_wireEncode encD (State h1 (s_default s)) j f) as [s2 r]. cbn [fst s_heap] in K1.
    pose proof (RO_trans _ _ _ K K1) as K2. destruct r as [w2|]; [|exact K2]. destruct (c_fromImplicitSha256Digest _) as [c|]; [|exact K2].
    assert (K3 : RO (s_heap s) (fst (alloc (s_heap s2) (OName (d_name (data_value (s_heap (State h1 (s_default s))) j) ++ [c])) []))).
    { eapply RO_trans; [exact K2|]. apply RO_more. intros. apply alloc_nth; auto. }
    destruct (alloc _ _ _) as [h3 fn]. cbn [fst] in K3. destruct (f =? _); cbn; [|exact K3]. eapply RO_trans; [exact K3|apply RO_set_full]. }
  destruct w as [w|]; [|exact X]. destruct (nth_error h1 j) as [o1|]; [|exact X]. destruct (ca_full (o_cache o1)) as [n|]; [|exact X]. destruct (_ && _); [exact K|exact X].
Qed.
Lemma RO_cache_new : forall h L j ca, (forall h0, (L <= j)%nat -> RO h0 h -> (length h0 <= L)%nat -> RO h0 (set_cache h j ca)).
Proof.
  intros h L j ca h0 Lj R Ll k o C E. destruct (R k o C E) as (o' & E' & A). exists o'. split; auto.
  unfold set_cache. destruct (nth_error h j); auto. rewrite nth_upd_ne; auto. assert (k < length h0)%nat by (apply nth_error_Some; congruence). lia.
Qed.
Lemma step_len : forall h h', step h h' -> (length h <= length h')%nat.
Proof.
  intros h h' ST. destruct (Nat.le_gt_cases (length h) (length h')); auto. exfalso.
  destruct (nth_error h (length h')) as [o|] eqn:E; [|apply nth_error_None in E; lia]. destruct (ST _ _ E) as (o' & E' & _).
  assert (length h' < length h')%nat by (apply nth_error_Some; congruence). lia.
Qed.
Lemma RO_copyD : forall h j, Good' h -> is_data h j -> RO h (fst (data_copy h j)).
Proof.
  intros h j Gd D. destruct (class_data _ _ D) as (o & E & _). unfold data_copy. pose proof (RO_gdwe h j (proj1 Gd)) as K.
  destruct (getDefaultWireEncoding h j) as [[h1 w] wf] eqn:Eg. cbn [fst] in K.
  pose proof (gdwe_spec encD decD encI decI h j o Gd E h1 w wf Eg) as (G1 & S1 & _). pose proof (step_len _ _ S1) as L1.
  pose proof (proj1 (alloc_data_spec h1 (data_value h j) (proj1 G1))) as N. pose proof (RO_new _ _ _ N) as K1. pose proof (n_len _ _ _ N) as L2.
  destruct (alloc_data h1 _) as [h2 k]. cbn [fst snd] in *. pose proof (RO_trans _ _ _ K K1) as K2.
  assert (L3 : forall h', RO h h' -> RO h (set_cache h' k (Cache w wf 0 (match nth_error h1 j with Some o => ca_full (o_cache o) | None => None end) None 0))) by (intros h' R; apply (RO_cache_new h' (length h1)); auto; lia).
  destruct (match nth_error h1 j with Some o => ca_full (o_cache o) | None => None end) as [fn|].
  - assert (K3 : RO h (fst (alloc h2 (OName (name_at h2 fn)) []))). { eapply RO_trans; [exact K2|]. apply RO_more. intros. apply alloc_nth; auto. }
    destruct (alloc h2 (OName (name_at h2 fn)) []) as [h3 m]. cbn [fst] in *. apply (RO_cache_new h3 (length h1)); auto; lia.
  - cbn [fst]. apply L3. auto.
Qed.
Lemma RO_copyI : forall h j, Good' h -> is_int h j -> RO h (fst (int_copy h j)).
Proof.
  intros h j Gd D. destruct (class_int _ _ D) as (o & E & _). unfold int_copy.
  pose proof (RO_getNonce h j (proj1 Gd)) as K0. destruct (int_getNonce h j) as [h0 n] eqn:En. cbn [fst] in K0.
  destruct (getNonce_spec encD decD encI decI h j o Gd E h0 n En) as (G0 & S0 & _). destruct (S0 j o E) as (o0 & E0 & _).
  pose proof (RO_gdwe h0 j (proj1 G0)) as K.
  destruct (getDefaultWireEncoding h0 j) as [[h1 w] wf] eqn:Eg. cbn [fst] in K.
  pose proof (gdwe_spec encD decD encI decI h0 j o0 G0 E0 h1 w wf Eg) as (G1 & S1 & _). pose proof (step_len _ _ S1) as L1. pose proof (step_len _ _ S0) as L0.
  pose proof (proj1 (alloc_int_spec h1 (int_value h0 j n) (proj1 G1))) as N. pose proof (RO_new _ _ _ N) as K1. pose proof (n_len _ _ _ N) as L2.
  destruct (alloc_int h1 _) as [h2 k]. cbn [fst snd] in *. pose proof (RO_trans _ _ _ K0 (RO_trans _ _ _ K K1)) as K2.
  apply (RO_cache_new h2 (length h1)); auto; lia.
Qed.
Lemma exec_ro : forall s o, Good' (s_heap s) -> only_reads o -> RO (s_heap s) (s_heap (fst (exec' s o))).
Proof.
  intros s o Gd Hr. pose proof (proj1 Gd) as I. destruct o; cbn [only_reads] in Hr; try contradiction; cbn [exec];
    try (match goal with |- context [guard ?b] => destruct b eqn:Hb; cbn [guard]; [apply is_class_true in Hb|apply RO_refl] end).
  - apply (RO_new _ (alloc (s_heap s) (OName n) []) CName). apply (alloc_leaf (s_heap s) (OName n) I eq_refl).
  - apply (RO_new _ (alloc (s_heap s) (OMeta m) []) CMeta). apply (alloc_leaf (s_heap s) (OMeta m) I eq_refl).
  - apply (RO_new _ (alloc (s_heap s) (OVal v) []) CVal). apply (alloc_leaf (s_heap s) (OVal v) I eq_refl).
  - apply (RO_new _ (alloc_kl (s_heap s) kl) CKl). apply alloc_kl_spec; auto.
  - apply (RO_new _ (alloc_sig (s_heap s) s0) CSig). apply alloc_sig_spec; auto.
  - apply (RO_new _ (alloc_data (s_heap s) d) CData). apply alloc_data_spec; auto.
  - pose proof (proj1 (alloc_int_spec (s_heap s) i I)) as N. pose proof (RO_new _ _ _ N) as K. pose proof (n_len _ _ _ N) as L.
    destruct (alloc_int (s_heap s) i) as [h1 j]. cbn [fst snd new_op s_heap] in *. unfold set_nonce. destruct (nth_error h1 j) as [oj|] eqn:Ej; [|exact K]. apply (RO_cache_new h1 (length (s_heap s))); auto; lia.
  - pose proof (RO_getNonce (s_heap s) i I) as K. destruct (int_getNonce (s_heap s) i); exact K.
  - pose proof (RO_gcc (s_heap s) i I) as K. destruct (getChangeCount (s_heap s) i); exact K.
  - apply RO_encD; auto.
  - apply RO_full; auto.
  - apply RO_copyD; auto.
  - apply RO_encI; auto.
  - apply RO_copyI; auto.
  - apply RO_refl.
Qed.
Lemma reads_seen : forall s o, only_reads o -> seen_call s o.
Proof. intros s []; cbn; auto; contradiction. Qed.
Lemma run_ro : forall os s, Good' (s_heap s) -> Forall only_reads os -> RO (s_heap s) (s_heap (run' s os)).
Proof.
  induction os as [|o os IH]; intros s Gd F; cbn; [apply RO_refl|]. inversion F as [|? ? F1 F2]; subst.
  pose proof (exec_good encD decD partD encI decI partI sha256 s o Gd (reads_seen s o F1)) as [G1 _].
  eapply RO_trans; [exact (exec_ro s o Gd F1)|]. apply IH; auto.
Qed.
Lemma reads_history : forall os s, Forall only_reads os -> seen_history encD decD partD encI decI partI sha256 s os.
Proof. induction os as [|o os IH]; intros s F; cbn; auto. inversion F; subst. split; auto using reads_seen. Qed.
(** A nonce that getNonce returns: the Interest is up to date. *)
Lemma nonce_clean : forall h i o b, Good' h -> nth_error h i = Some o -> nonce_now h i = Some b ->
  clean h i /\ ca_nonce (o_cache o) = Some b /\ ca_nonceSeen (o_cache o) = o_count o.
Proof.
  intros h i o b Gd E Hb. rewrite (nonce_now_spec h i o E (proj1 Gd)) in Hb.
  destruct (Z.eqb_spec (ca_nonceSeen (o_cache o)) (snd (getChangeCount h i))) as [Eq|]; [|discriminate].
  destruct (gcc_post_of h i o (proj1 Gd) E) as (GSx & Cx & (o2 & E2 & Ec2) & _). destruct (gs_step _ _ GSx i o E) as (o4 & E4 & L4 & _). assert (o4 = o2) by congruence. subst o4.
  destruct (proj2 Gd i o E) as (_ & _ & Ln). assert (o_count o = o_count o2) by lia. split; [|split; [auto|lia]].
  eapply clean_back_clean; [apply Gd|apply GSx|apply Cx|eauto|eauto|auto].
Qed.
Lemma clean_nonce : forall h i o, Inv h -> clean h i -> nth_error h i = Some o -> ca_nonceSeen (o_cache o) = o_count o -> nonce_now h i = ca_nonce (o_cache o).
Proof.
  intros h i o I C E Es. rewrite (nonce_now_spec h i o E I). pose proof (gcc_clean_id h i o I C E) as X.
  destruct (getChangeCount h i) as [h1 c]. cbn [snd]. destruct X as [_ X]. cbn in X.
  replace (ca_nonceSeen (o_cache o) =? c) with true; auto. symmetry. apply Z.eqb_eq. lia.
Qed.
(** ** What a call keeps of the caches *)
Lemma keep_refl : forall h, keep h h.
Proof. intros h a oa Ea. left; eauto. Qed.
Lemma step_kid : forall h j p n, Inv h -> step h (set_kid h j p n).
Proof.
  intros h j p n I a o E. unfold set_kid. pose proof (g_step _ _ (G_gcc h n I)) as ST. destruct (getChangeCount h n) as [h1 c]. cbn [fst] in ST.
  destruct (ST a o E) as (o1 & E1 & L). destruct (nth_error h1 j) as [oj|] eqn:Ej; [|eauto].
  destruct (Nat.eq_dec j a) as [-> |Nn]; [|rewrite nth_upd_ne by auto; eauto].
  assert (oj = o1) by congruence. subst. rewrite (nth_upd_eq _ _ _ _ Ej). eexists. split; [reflexivity|]. destruct L as (L1 & L2 & L3). split; [|split]; cbn; auto; lia.
Qed.
Lemma setter_keep : forall s o k, Good' (s_heap s) -> sets o k -> keep (s_heap s) (s_heap (fst (exec' s o))).
Proof.
    intros s o k Gd St. pose proof (proj1 Gd) as I.
    assert (KO : forall j v, keep (s_heap s) (set_own (s_heap s) j v)).
    { intros j v a oa Ea. unfold set_own in Ea. destruct (nth_error (s_heap s) j) as [oj|] eqn:Ej; [|left; eauto].
      destruct (Nat.eq_dec j a) as [-> |Nn]; [rewrite (nth_upd_eq _ _ _ _ Ej) in Ea; inversion Ea; left; eexists; split; eauto|rewrite nth_upd_ne in Ea by auto; left; eauto]. }
    assert (NEW : forall r c, new_obj (s_heap s) r c -> keep (s_heap s) (fst r)) by (intros r c N; apply (n_G _ _ _ N)).
      assert (KK : forall h j p n, Inv h -> keep h (set_kid h j p n)).
      { intros h j p n Ih a oa Ea. unfold set_kid in Ea. pose proof (g_keep _ _ (G_gcc h n Ih)) as Kg. destruct (getChangeCount h n) as [hg cg]. cbn [fst] in Kg.
        destruct (nth_error hg j) as [oj|] eqn:Ej; [|apply Kg; auto].
        destruct (Nat.eq_dec j a) as [-> |Nn]; [rewrite (nth_upd_eq _ _ _ _ Ej) in Ea; inversion Ea; subst; destruct (Kg a oj Ej) as [?|(? & ? & ?)]; [left; auto|right; split; auto; split; auto; cbn; lia]|rewrite nth_upd_ne in Ea by auto; apply Kg; auto]. }
      assert (KT : forall a b c, step a b -> step b c -> keep a b -> keep b c -> keep a c).
      { intros ha hb hc S S' K1 K2 a oa Ea. destruct (K2 a oa Ea) as [(ob & Eb & Q)|[Nb Q]].
        - destruct (K1 a ob Eb) as [(oc & Ec & Q2)|[Nc Q2]]; [left; exists oc; split; auto; congruence|destruct Q2 as [Q2 Q3]; right; split; auto; split; [congruence|]; destruct (S' a ob Eb) as (oa' & Ea' & La & _); assert (oa' = oa) by congruence; subst; lia].
        - right. split; auto. eapply step_none; eauto. }
      assert (KNEW : forall r c j p, new_obj (s_heap s) r c -> keep (s_heap s) (set_kid (fst r) j p (snd r))).
      { intros r c j p N. eapply KT; [apply (g_step _ _ (n_G _ _ _ N))| |apply (NEW r c N)|apply KK, (new_inv _ _ _ N)]. apply step_kid, (new_inv _ _ _ N). }
      unfold sets in St. destruct o; try contradiction; subst; cbn [exec];
        try (match goal with |- context [guard ?b] => destruct b; cbn [guard]; [|exact (keep_refl _)] end); cbn [unit_op fst s_heap]; try apply KO; try (apply KK; auto).
      - destruct (kid (s_heap s) k 0) as [n|]; [|apply KO].
        intros a oa Ea. unfold set_own in Ea. destruct (nth_error (s_heap s) n) as [on|] eqn:En; [|apply (KO k (OKl None None)); unfold set_own; auto].
        destruct (nth_error (upd (s_heap s) n _) k) as [ok|] eqn:Ek.
        + destruct (Nat.eq_dec k a) as [-> |Nn].
          * rewrite (nth_upd_eq _ _ _ _ Ek) in Ea. inversion Ea; subst; cbn. destruct (Nat.eq_dec n a) as [-> |Nn2]; [rewrite (nth_upd_eq _ _ _ _ En) in Ek; inversion Ek; subst; left; eexists; split; eauto|rewrite nth_upd_ne in Ek by auto; left; eauto].
          * rewrite nth_upd_ne in Ea by auto. destruct (Nat.eq_dec n a) as [-> |Nn2]; [rewrite (nth_upd_eq _ _ _ _ En) in Ea; inversion Ea; subst; left; eexists; split; eauto|rewrite nth_upd_ne in Ea by auto; left; eauto].
        + destruct (Nat.eq_dec n a) as [-> |Nn2]; [rewrite (nth_upd_eq _ _ _ _ En) in Ea; inversion Ea; subst; left; eexists; split; eauto|rewrite nth_upd_ne in Ea by auto; left; eauto].
      - destruct (nth_error (s_heap s) k) as [[[] ks c ca]|] eqn:E; try exact (keep_refl _). apply KO.
      - destruct (nth_error (s_heap s) k) as [[[| | | |[] b| | | |] ks c ca]|] eqn:E; try exact (keep_refl _);
          (match goal with |- context [guard ?b] => destruct b; cbn [guard]; [|exact (keep_refl _)] end);
          pose proof (proj1 (alloc_kl_spec (s_heap s) (t_kl (deep 4 (s_heap s) kl)) I)) as N; pose proof (KNEW _ _ k 0%nat N) as R; destruct (alloc_kl (s_heap s) _); exact R.
      - destruct (nth_error (s_heap s) k) as [[[| | | |[] b| | | |] ks c ca]|] eqn:E; try exact (keep_refl _);
          (match goal with |- context [guard ?b] => destruct b; cbn [guard]; [|exact (keep_refl _)] end);
          pose proof (proj1 (alloc_leaf (s_heap s) (OVal (t_val (deep 4 (s_heap s) vp))) I eq_refl)) as N; pose proof (KNEW _ _ k 1%nat N) as R; destruct (alloc (s_heap s) _ _); exact R.
      - destruct (nth_error (s_heap s) k) as [[[| | | |[] b| | | |] ks c ca]|] eqn:E; try exact (keep_refl _). apply KO.
      - pose proof (proj1 (alloc_leaf (s_heap s) (OMeta (t_meta (deep 4 (s_heap s) m))) I eq_refl)) as N. pose proof (KNEW _ _ k 1%nat N) as R. destruct (alloc (s_heap s) _ _); exact R.
      - pose proof (proj1 (alloc_sig_spec (s_heap s) (t_sig (deep 4 (s_heap s) s0)) I)) as N. pose proof (KNEW _ _ k 2%nat N) as R. destruct (alloc_sig (s_heap s) _); exact R.
      - pose proof (proj1 (alloc_kl_spec (s_heap s) (t_kl (deep 4 (s_heap s) kl)) I)) as N. pose proof (KNEW _ _ k 1%nat N) as R. destruct (alloc_kl (s_heap s) _); exact R.
      - pose proof (proj1 (alloc_leaf (s_heap s) (OExcl (t_excl (deep 4 (s_heap s) e))) I eq_refl)) as N. pose proof (KNEW _ _ k 2%nat N) as R. destruct (alloc (s_heap s) _ _); exact R.
      - pose proof (proj1 (alloc_leaf (s_heap s) (ODel (t_del (deep 4 (s_heap s) d))) I eq_refl)) as N. pose proof (KNEW _ _ k 3%nat N) as R. destruct (alloc (s_heap s) _ _); exact R.
Qed.

Definition NF (h : heap) : Prop := forall i o, nth_error h i = Some o -> ca_full (o_cache o) = None.
Lemma NF_keep : forall h h', keep h h' -> NF h -> NF h'.
Proof. intros h h' K N i o E. destruct (K i o E) as [(o0 & E0 & Q)|(_ & Q & _)]; rewrite Q; eauto. Qed.
Lemma NF_G : forall h h', G h h' -> NF h -> NF h'.
Proof. intros h h' K. apply NF_keep, K. Qed.
Lemma NF_cache : forall h i ca, NF h -> (forall o, nth_error h i = Some o -> ca_full ca = ca_full (o_cache o)) -> NF (set_cache h i ca).
Proof.
  intros h i ca N H j o E. unfold set_cache in E. destruct (nth_error h i) as [oi|] eqn:Ei; [|eauto]. destruct (Nat.eq_dec i j) as [-> |Nn].
  - rewrite (nth_upd_eq _ _ _ _ Ei) in E. inversion E; subst. cbn. rewrite (H oi eq_refl). eauto.
  - rewrite nth_upd_ne in E by auto. eauto.
Qed.
Lemma NF_gcc : forall h j, Inv h -> NF h -> NF (fst (getChangeCount h j)).
Proof. intros h j I. apply NF_G, G_gcc; auto. Qed.
Lemma NF_gdwe : forall h j, Inv h -> NF h -> NF (fst (fst (getDefaultWireEncoding h j))).
Proof.
  intros h j I N. unfold getDefaultWireEncoding. pose proof (NF_gcc h j I N) as K. destruct (getChangeCount h j) as [h1 c]. cbn [fst] in *.
  destruct (nth_error h1 j) as [o|] eqn:E; [|exact K]. destruct (negb _); cbn [fst]; [|exact K].
  apply NF_cache; auto. intros o' E'. assert (o' = o) by congruence. subst. auto.
Qed.
Lemma NF_sdwe : forall h j w f, Inv h -> NF h -> NF (setDefaultWireEncoding h j w f).
Proof.
  intros h j w f I N. unfold setDefaultWireEncoding. pose proof (NF_gcc h j I N) as K. destruct (getChangeCount h j) as [h1 c]. cbn [fst] in *.
  destruct (nth_error h1 j) as [o|] eqn:E; [|exact K]. apply NF_cache; auto. intros o' E'. assert (o' = o) by congruence. subst. auto.
Qed.
Lemma NF_set_nonce : forall h j n c, NF h -> NF (set_nonce h j n c).
Proof. intros h j n c N. unfold set_nonce. destruct (nth_error h j) as [o|] eqn:E; auto. apply NF_cache; auto. intros o' E'. assert (o' = o) by congruence. subst. auto. Qed.
Lemma NF_getNonce : forall h j, Inv h -> NF h -> NF (fst (int_getNonce h j)).
Proof.
  intros h j I N. unfold int_getNonce. pose proof (NF_gcc h j I N) as K. destruct (getChangeCount h j) as [h1 c]. cbn [fst] in *.
  destruct (nth_error h1 j) as [o|] eqn:E; [|exact K]. destruct (negb _); cbn [fst]; [|exact K]. apply NF_set_nonce; auto.
Qed.
Lemma NF_setNonce : forall h j n, Inv h -> NF h -> NF (int_setNonce h j n).
Proof.
  intros h j n I N. unfold int_setNonce. destruct (nth_error h j) as [o|] eqn:E; auto.
  pose proof (G_set_own h j o (o_own o) I E eq_refl eq_refl) as G1. pose proof (NF_gcc _ j (g_inv _ _ G1) (NF_G _ _ G1 N)) as K.
  destruct (getChangeCount (set_own h j (o_own o)) j) as [h1 c]. apply NF_set_nonce; auto.
Qed.
Lemma NF_encD : forall s j f, Good' (s_heap s) -> is_data (s_heap s) j -> NF (s_heap s) -> NF (s_heap (fst (data_wireEncode encD s j f))).
Proof.
  intros s j f Gd D N. destruct (class_data _ _ D) as (o & E & _). unfold data_wireEncode. pose proof (NF_gdwe (s_heap s) j (proj1 Gd) N) as K.
  destruct (getDefaultWireEncoding (s_heap s) j) as [[h1 w] wf] eqn:Eg. cbn [fst] in K.
  pose proof (gdwe_spec encD decD encI decI (s_heap s) j o Gd E h1 w wf Eg) as (G1 & _).
  assert (X : NF (s_heap (fst (match encD f (data_value h1 j) with Err e => (State h1 (s_default s), Err e) | Ok w' => (State (if f =? s_default s then setDefaultWireEncoding h1 j (Some w') (Some f) else h1) (s_default s), Ok w') end)))).
  { destruct (encD f (data_value h1 j)); [|exact K]. destruct (f =? s_default s); [|exact K]. cbn. apply NF_sdwe; auto. apply G1. }
  destruct w as [w|]; [|exact X]. destruct (fmt_eqb wf f); [exact K|exact X].
Qed.
Lemma NF_encI : forall s j f rnd, Good' (s_heap s) -> is_int (s_heap s) j -> NF (s_heap s) -> NF (s_heap (fst (int_wireEncode encI s j f rnd))).
Proof.
  intros s j f rnd Gd D N. destruct (class_int _ _ D) as (o & E & _). unfold int_wireEncode. pose proof (NF_gdwe (s_heap s) j (proj1 Gd) N) as K.
  destruct (getDefaultWireEncoding (s_heap s) j) as [[h1 w] wf] eqn:Eg. cbn [fst] in K.
  pose proof (gdwe_spec encD decD encI decI (s_heap s) j o Gd E h1 w wf Eg) as (G1 & S1 & _). destruct (S1 j o E) as (o1 & E1 & _).
  assert (X : NF (s_heap (fst (let '(h2, n) := int_getNonce h1 j in match encI f rnd (int_value h2 j n) with Err e => (State h2 (s_default s), Err e) | Ok w' => (State (if f =? s_default s then setDefaultWireEncoding h2 j (Some w') (Some f) else h2) (s_default s), Ok w') end)))).
  { pose proof (NF_getNonce h1 j (proj1 G1) K) as K1. destruct (int_getNonce h1 j) as [h2 n] eqn:En. cbn [fst] in K1.
    destruct (getNonce_spec encD decD encI decI h1 j o1 G1 E1 h2 n En) as (G2 & _).
    destruct (encI f rnd (int_value h2 j n)); [|exact K1]. destruct (f =? s_default s); [|exact K1]. cbn. apply NF_sdwe; auto. apply G2. }
  destruct w as [w|]; [|exact X]. destruct (fmt_eqb wf f); [exact K|exact X].
Qed.
Lemma NF_copyD : forall h j, Good' h -> is_data h j -> NF h -> NF (fst (data_copy h j)).
Proof.
  intros h j Gd D N0. destruct (class_data _ _ D) as (o & E & _). unfold data_copy. pose proof (NF_gdwe h j (proj1 Gd) N0) as K.
  destruct (getDefaultWireEncoding h j) as [[h1 w] wf] eqn:Eg. cbn [fst] in K.
  pose proof (gdwe_spec encD decD encI decI h j o Gd E h1 w wf Eg) as (G1 & S1 & _).
  assert (F : match nth_error h1 j with Some o => ca_full (o_cache o) | None => None end = None) by (destruct (nth_error h1 j) eqn:E1; eauto).
  rewrite F. pose proof (proj1 (alloc_data_spec h1 (data_value h j) (proj1 G1))) as N. pose proof (NF_G _ _ (n_G _ _ _ N) K) as K1.
  destruct (alloc_data h1 _) as [h2 k]. cbn [fst snd] in *. apply NF_cache; auto. intros o' E'. rewrite (K1 k o' E'). auto.
Qed.
Lemma NF_copyI : forall h j, Good' h -> is_int h j -> NF h -> NF (fst (int_copy h j)).
Proof.
  intros h j Gd D N0. destruct (class_int _ _ D) as (o & E & _). unfold int_copy.
  pose proof (NF_getNonce h j (proj1 Gd) N0) as K0. destruct (int_getNonce h j) as [h0 n] eqn:En. cbn [fst] in K0.
  destruct (getNonce_spec encD decD encI decI h j o Gd E h0 n En) as (G0 & S0 & _). destruct (S0 j o E) as (o0 & E0 & _).
  pose proof (NF_gdwe h0 j (proj1 G0) K0) as K.
  destruct (getDefaultWireEncoding h0 j) as [[h1 w] wf] eqn:Eg. cbn [fst] in K.
  pose proof (gdwe_spec encD decD encI decI h0 j o0 G0 E0 h1 w wf Eg) as (G1 & S1 & _).
  pose proof (proj1 (alloc_int_spec h1 (int_value h0 j n) (proj1 G1))) as N. pose proof (NF_G _ _ (n_G _ _ _ N) K) as K1.
  destruct (alloc_int h1 _) as [h2 k]. cbn [fst snd] in *. apply NF_cache; auto. intros o' E'. rewrite (K1 k o' E'). auto.
Qed.
Lemma NF_set_own : forall h j v, NF h -> NF (set_own h j v).
Proof.
  intros h j v N k o E. unfold set_own in E. destruct (nth_error h j) as [oj|] eqn:Ej; [|eauto]. destruct (Nat.eq_dec j k) as [-> |Nn].
  - rewrite (nth_upd_eq _ _ _ _ Ej) in E. inversion E; subst. cbn. eauto.
  - rewrite nth_upd_ne in E by auto. eauto.
Qed.
Lemma NF_assignI : forall h j v b, Good' h -> is_int h j -> NF h -> NF (int_assign h j v b).
Proof.
  intros h j v b Gd D N. destruct (int_assign_spec encD decD encI decI h j v false Gd D) as (G1 & _).
  assert (X : NF (int_assign h j v false)).
  { unfold int_assign. destruct (kid h j 0); auto. destruct (kid h j 1); auto. destruct (kid h j 2); auto. destruct (kid h j 3); auto.
    repeat apply NF_set_own. destruct (kid _ _ 0); repeat apply NF_set_own; auto. }
  destruct b; auto. revert X G1. unfold int_assign. destruct (kid h j 0); auto. destruct (kid h j 1); auto. destruct (kid h j 2); auto. destruct (kid h j 3); auto.
  intros X G1. apply NF_setNonce; auto. apply G1.
Qed.
Definition not_full (o : op) : Prop := match o with DFullName _ _ => False | _ => True end.
Lemma exec_nf : forall s o, Good' (s_heap s) -> seen_call s o -> not_full o -> NF (s_heap s) -> NF (s_heap (fst (exec' s o))).
Proof.
  intros s o Gd Sc Nf N. pose proof (proj1 Gd) as I.
  assert (SK : forall k, sets o k -> NF (s_heap (fst (exec' s o)))) by (intros k Hs; eapply NF_keep; [eapply setter_keep; eauto|auto]).
  destruct o; cbn [sets] in SK; try (eapply SK; reflexivity); clear SK; cbn [seen_call not_full] in *; try contradiction; cbn [exec];
    try (match goal with |- context [guard ?b] => destruct b eqn:Hb; cbn [guard]; [apply is_class_true in Hb|exact N] end).
  - apply (NF_G (s_heap s)); auto. apply (n_G _ (alloc (s_heap s) (OName n) []) CName). apply (alloc_leaf (s_heap s) (OName n) I eq_refl).
  - apply (NF_G (s_heap s)); auto. apply (n_G _ (alloc (s_heap s) (OMeta m) []) CMeta). apply (alloc_leaf (s_heap s) (OMeta m) I eq_refl).
  - apply (NF_G (s_heap s)); auto. apply (n_G _ (alloc (s_heap s) (OVal v) []) CVal). apply (alloc_leaf (s_heap s) (OVal v) I eq_refl).
  - apply (NF_G (s_heap s)); auto. apply (n_G _ (alloc_kl (s_heap s) kl) CKl). apply alloc_kl_spec; auto.
  - apply (NF_G (s_heap s)); auto. apply (n_G _ (alloc_sig (s_heap s) s0) CSig). apply alloc_sig_spec; auto.
  - apply (NF_G (s_heap s)); auto. apply (n_G _ (alloc_data (s_heap s) d) CData). apply alloc_data_spec; auto.
  - pose proof (NF_G _ _ (n_G _ _ _ (proj1 (alloc_int_spec (s_heap s) i I))) N) as K. destruct (alloc_int (s_heap s) i) as [h1 j]. cbn. apply NF_set_nonce; auto.
  - apply NF_setNonce; auto.
  - pose proof (NF_getNonce (s_heap s) i I N) as K. destruct (int_getNonce (s_heap s) i); exact K.
  - destruct (class_obj _ _ _ Hb) as (o & E & C). unfold int_refreshNonce. pose proof (NF_getNonce (s_heap s) i I N) as K. destruct (int_getNonce (s_heap s) i) as [h1 n] eqn:En.
    destruct (getNonce_spec encD decD encI decI (s_heap s) i o Gd E _ _ En) as (G1 & _). cbn [fst] in K.
    destruct n as [c|]; auto. destruct (zlen c =? 0); auto. destruct (next_nonce c _) as [m|]; auto. cbn. apply NF_setNonce; auto. apply G1.
  - pose proof (NF_gcc (s_heap s) i I N) as K. destruct (getChangeCount (s_heap s) i); exact K.
  - apply NF_encD; auto.
  - unfold data_wireDecode. destruct (decD f _ input) as [[d offs]|e]; cbn [fst s_heap].
    + destruct (data_assign_spec encD decD encI decI (s_heap s) i d Gd Hb) as (G1 & S1 & GG1 & _).
      destruct (f =? s_default s); (apply NF_sdwe; [apply G1|eapply NF_G; eauto]).
    + destruct (partD f _ input) as [d|]; auto. eapply NF_G; [|apply N]. apply (data_assign_spec encD decD encI decI (s_heap s) i d Gd Hb).
  - apply NF_copyD; auto.
  - apply NF_encI; auto.
  - unfold int_wireDecode. destruct (int_getNonce (s_heap s) i) as [h0 n0]. destruct (decI f (int_value h0 i n0) input) as [[v offs]|e]; cbn [fst s_heap].
    + destruct (int_assign_spec encD decD encI decI (s_heap s) i v true Gd Hb) as (G1 & _).
      destruct (f =? s_default s); (apply NF_sdwe; [apply G1|apply NF_assignI; auto]).
    + destruct (partI f (int_value h0 i n0) input) as [[v b]|]; auto. apply NF_assignI; auto.
  - apply NF_copyI; auto.
  - exact N.
Qed.
Lemma run_nf : forall os s, Good' (s_heap s) -> seen_history encD decD partD encI decI partI sha256 s os -> Forall not_full os -> NF (s_heap s) -> NF (s_heap (run' s os)).
Proof.
  induction os as [|o os IH]; intros s Gd H F N; cbn in *; auto. destruct H as [H1 H2]. inversion F; subst.
  apply IH; auto; [apply (exec_good encD decD partD encI decI partI sha256 s o Gd H1)|apply exec_nf; auto].
Qed.
End Formats.
