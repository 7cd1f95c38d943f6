(** * Proofs about the segment fetcher and the segment publisher. *)
From Verif Require Import Base BaseLemmas TlvModel TlvSpec TlvProofs TlvEncProofs NameModel NameSpec NameProofs WireModel MatchProps SegModel SegSpec ListAux.
From Coq Require Import Lia.
Local Open Scope res_scope.

Lemma run_snoc kc s os o : run kc s (os ++ [o]) = step kc (run kc s os) o.
Proof. unfold run. now rewrite fold_left_app. Qed.

Lemma getitem_last {A} (p : list A) c : py_getitem (p ++ [c]) (-1) = Ok c.
Proof. apply last_getitem. Qed.
Lemma toSegment_iff c k : c_toSegment c = Ok k <-> exists v, c_value c = 0 :: v /\ be_value v = k.
Proof.
  unfold c_toSegment, c_toNumberWithMarker, MARK_SEGMENT. destruct (c_value c) as [|b v]; [split; [discriminate|intros (v & H & _); discriminate]|].
  destruct (b =? 0) eqn:E.
  - rewrite be_value_fold. assert (b = 0) by lia. subst b. split; [intro H; injection H as <-; eauto|intros (v' & H & <-); now injection H as <-].
  - split; [discriminate|]. intros (v' & H & _). injection H as -> _. discriminate.
Qed.
Lemma toSegment_err c x : c_toSegment c = Err x -> x = RuntimeError.
Proof. unfold c_toSegment, c_toNumberWithMarker. destruct (c_value c); [congruence|]. destruct (_ =? _); congruence. Qed.
Lemma ends_iff n : endsWithSegment n = true <-> exists p c k, n = p ++ [c] /\ is_segment c k.
Proof.
  unfold endsWithSegment. destruct n as [|x l _] using rev_ind.
  - cbn. split; [discriminate|]. intros (p & c & k & H & _). destruct p; discriminate.
  - rewrite getitem_last. unfold c_isSegment, c_hasMarker, is_segment, c_isGeneric, MARK_SEGMENT, CT_GENERIC. split.
    + destruct (c_value x) as [|b v] eqn:Ev; [discriminate|]. intro H. apply andb_prop in H. destruct H as [H1 H2]. apply Z.eqb_eq in H1, H2. subst b.
      exists l, x, (be_value v). split; [reflexivity|]. split; [exact H2|]. exists v. auto.
    + intros (p & c & k & H & H1 & v & H2 & _). apply app_inj_tail in H. destruct H as [_ <-]. rewrite H2, H1. reflexivity.
Qed.

Lemma concat_parts_iff l b : concat_parts l = Ok b <-> exists bs, l = map Some bs /\ b = concat bs.
Proof.
  revert b. induction l as [|[x|] l IH]; intro b; cbn [concat_parts].
  - split; [intro H; injection H as <-; exists []; auto|intros ([|] & H & ->); [reflexivity|discriminate]].
  - destruct (concat_parts l) as [t|e] eqn:E; cbn [rbind].
    + destruct (proj1 (IH t) eq_refl) as (bs & -> & ->). split; [intro H; injection H as <-; exists (x :: bs); auto|].
      intros (bs' & H & ->). destruct bs' as [|y bs']; [discriminate|]. cbn in H. injection H as -> H. cbn. do 2 f_equal.
      assert (K : map Some bs = map Some bs') by exact H. clear -K. revert bs' K. induction bs; intros [|] K; try discriminate; [reflexivity|]. cbn in *. injection K as -> K. f_equal. now apply IHbs.
    + split; [discriminate|]. intros (bs & H & ->). destruct bs as [|y bs]; [discriminate|]. cbn in H. injection H as -> H. assert (K : Err e = Ok (concat bs)) by (apply IH; exists bs; auto). discriminate.
  - split; [discriminate|]. intros ([|] & H & _); discriminate.
Qed.

(** What one verified packet does. *)
Inductive verified_step (s : state) (d : data) (i : interest) : state -> Prop :=
| VNoSegment : (forall k, ~ segment_of d k) -> verified_step s d i (finish s (LError DATA_HAS_NO_SEGMENT))
| VOther k s' : segment_of d k -> k <> zlen (s_parts s) -> s' = fetchNext s i (d_name d) (zlen (s_parts s)) -> verified_step s d i s'
| VBadFinal : segment_of d (zlen (s_parts s)) -> c_value (mi_final (d_meta d)) <> [] -> (forall k, ~ final_of d k) ->
    verified_step s d i (finish (State (s_parts s ++ [d_content d]) (s_wait s) (s_log s)) (LError DATA_HAS_NO_SEGMENT))
| VComplete b : segment_of d (zlen (s_parts s)) -> final_of d (zlen (s_parts s)) -> concat_parts (s_parts s ++ [d_content d]) = Ok b ->
    verified_step s d i (finish (State (s_parts s ++ [d_content d]) (s_wait s) (s_log s)) (LComplete b))
| VNull x : segment_of d (zlen (s_parts s)) -> final_of d (zlen (s_parts s)) -> concat_parts (s_parts s ++ [d_content d]) = Err x ->
    verified_step s d i (finish (State (s_parts s ++ [d_content d]) (s_wait s) (s_log s)) (LRaise x))
| VNext s' : segment_of d (zlen (s_parts s)) -> ~ final_of d (zlen (s_parts s)) ->
    s' = fetchNext (State (s_parts s ++ [d_content d]) (s_wait s) (s_log s)) i (d_name d) (zlen (s_parts s) + 1) -> verified_step s d i s'.

Lemma onVerified_step s d i : verified_step s d i (onVerified s d i).
Proof.
  unfold onVerified. destruct (endsWithSegment (d_name d)) eqn:Ee; cbn [negb].
  - apply ends_iff in Ee. destruct Ee as (p & c & k & En & Ht & Hk). rewrite En, getitem_last. cbn [rbind].
    rewrite (proj2 (toSegment_iff c k) Hk). rewrite <- En.
    assert (Hseg : segment_of d k) by (exists p, c; split; [exact En|split; assumption]).
    destruct (k =? zlen (s_parts s)) eqn:Ek; cbn [negb]; [|eapply VOther; [exact Hseg|lia|reflexivity]].
    apply Z.eqb_eq in Ek. subst k. destruct (0 <? zlen (c_value (mi_final (d_meta d)))) eqn:Ez.
    + destruct (c_toSegment (mi_final (d_meta d))) as [f|x] eqn:Ef.
      * apply toSegment_iff in Ef. assert (Hf : final_of d f) by exact Ef. destruct (zlen (s_parts s) =? f) eqn:E.
        -- apply Z.eqb_eq in E. subst f. cbn [s_parts]. destruct (concat_parts _) eqn:Ec; [now apply VComplete|now apply VNull].
        -- apply VNext; [exact Hseg| |reflexivity]. intros (v & H1 & H2). destruct Hf as (v' & H1' & H2'). assert (v = v') by congruence. subst. lia.
      * pose proof (toSegment_err _ _ Ef). subst x. apply VBadFinal; [exact Hseg|intro H; rewrite H in Ez; discriminate|].
        intros k Hk'. apply toSegment_iff in Hk'. congruence.
    + apply VNext; [exact Hseg| |reflexivity]. intros (v & H & _). rewrite H, zlen_cons in Ez. pose proof (zlen_nonneg _ v). lia.
  - apply VNoSegment. intros k (p & c & En & Hs). assert (endsWithSegment (d_name d) = true) by (apply ends_iff; exists p, c, k; auto). congruence.
Qed.

Lemma nextInterest_ok i n k : 0 <= k -> exists c, nextInterest i n k = Ok (Interest (removelast n ++ [c]) (i_min i) (i_max i) (i_keyLocator i) (i_exclude i) (Some 0) false None (i_lifetime i) (i_hint i) (i_params i) (i_link i) (i_selected i)) /\
  c_fromSegment k = Ok c.
Proof.
  intro Hk. unfold nextInterest. rewrite n_getPrefix_ok. cbn [rbind]. cbn. destruct (c_fromSegment k) as [c|] eqn:E; cbn [rbind].
  - exists c. split; [|reflexivity]. do 3 f_equal. destruct n as [|x n _] using rev_ind; [reflexivity|]. rewrite removelast_last. rewrite zlen_app, zlen_cons, zlen_nil.
    replace (Z.to_nat (zlen n + (1 + 0) + -1)) with (length n) by (unfold zlen; lia). rewrite firstn_app, Nat.sub_diag, firstn_all. cbn. now rewrite app_nil_r.
  - unfold c_fromSegment in E. rewrite c_fromMarker_ok in E; [discriminate|exact Hk|unfold is_byte, MARK_SEGMENT; lia].
Qed.
Lemma fetchNext_ok s i n k : 0 <= k -> exists j, fetchNext s i n k = express s j /\ nextInterest i n k = Ok j.
Proof. intro Hk. unfold fetchNext. destruct (nextInterest_ok i n k Hk) as (c & -> & _). eexists. split; reflexivity. Qed.

(** ** The invariant of the fetcher *)
Lemma accepted_snoc kc base os o d : accepted kc base os d -> accepted kc base (os ++ [o]) d.
Proof. intros (os1 & i & o' & os2 & -> & H). exists os1, i, o', (os2 ++ [o]). rewrite <- app_assoc. auto. Qed.
Definition next_for (kc : bool) (base : interest) (os : list op) (j : interest) : Prop :=
  exists i d k, accepted kc base os d /\ 0 <= k /\ nextInterest i (d_name d) k = Ok j.
Record inv (kc : bool) (base : interest) (os : list op) (s : state) (ds : list data) : Prop := Inv {
  v_parts : s_parts s = map d_content ds;
  v_segs : forall k d, nth_error ds k = Some d -> segment_of d (Z.of_nat k) /\ accepted kc base os d;
  v_wait : match s_wait s with Some _ => (cnt is_terminal (s_log s) + cnt is_raise (s_log s) = 0)%nat | None => (cnt is_terminal (s_log s) + cnt is_raise (s_log s) = 1)%nat end;
  v_open : s_wait s <> None -> forall k d, nth_error ds k = Some d -> ~ final_of d (Z.of_nat k);
  v_complete : forall b, In (LComplete b) (s_log s) -> all_content ds b /\ exists ds' d, ds = ds' ++ [d] /\ final_of d (zlen ds') /\ forall k d', nth_error ds' k = Some d' -> ~ final_of d' (Z.of_nat k);
  v_verify : forall i d, s_wait s = Some (WVerify i d) -> exists v, In (FData d v) os;
  v_express : forall j, In (LExpress j) (s_log s) -> j = firstInterest base \/ next_for kc base os j }.

Lemma cnt_waiting s : (cnt is_terminal (s_log s) + cnt is_raise (s_log s) = 0)%nat -> forall b, ~ In (LComplete b) (s_log s).
Proof. intros H b Hb. assert (K : cnt is_terminal (s_log s) = 0%nat) by lia. pose proof (cnt_zero _ _ K _ Hb). discriminate. Qed.

Lemma inv_ignore kc base os s o ds : inv kc base os s ds -> inv kc base (os ++ [o]) s ds.
Proof.
  intros [A B C D E F G]. split; try assumption.
  - intros k d H. destruct (B k d H). split; [assumption|now apply accepted_snoc].
  - intros i d H. destruct (F i d H) as (v & Hv). exists v. apply in_or_app. now left.
  - intros j H. destruct (G j H) as [K|(i & d & k & H1 & H2 & H3)]; [now left|right; exists i, d, k; split; [now apply accepted_snoc|auto]].
Qed.
(** ending with an event other than onComplete *)
Lemma inv_finish kc base os s o ds e ds' : inv kc base os s ds -> s_wait s <> None -> (is_terminal e = true \/ is_raise e = true) -> (forall b, e <> LComplete b) ->
  (forall k d, nth_error ds' k = Some d -> segment_of d (Z.of_nat k) /\ accepted kc base (os ++ [o]) d) ->
  inv kc base (os ++ [o]) (finish (State (map d_content ds') (s_wait s) (s_log s)) e) ds'.
Proof.
  intros I Hw He Hc Hds. apply (inv_ignore _ _ _ _ o) in I. destruct I as [A B C D E F G]. destruct (s_wait s) as [w|] eqn:Ew; [|congruence]. split; cbn [finish s_parts s_wait s_log].
  - reflexivity.
  - exact Hds.
  - rewrite !cnt_app, !cnt_cons, !cnt_nil. destruct e; cbn in *; destruct He; try discriminate; lia.
  - congruence.
  - intros b H. apply in_app_or in H. destruct H as [H|[H|[]]]; [exfalso; eapply cnt_waiting; eassumption|edestruct Hc; eassumption].
  - discriminate.
  - intros j H. apply in_app_or in H. destruct H as [H|[H|[]]]; [now apply G|subst e; destruct He; discriminate].
Qed.
Lemma inv_express kc base os s o ds j ds' : inv kc base os s ds -> s_wait s <> None ->
  (forall k d, nth_error ds' k = Some d -> segment_of d (Z.of_nat k) /\ accepted kc base (os ++ [o]) d) ->
  (forall k d, nth_error ds' k = Some d -> ~ final_of d (Z.of_nat k)) -> next_for kc base (os ++ [o]) j ->
  inv kc base (os ++ [o]) (express (State (map d_content ds') (s_wait s) (s_log s)) j) ds'.
Proof.
  intros I Hw Hds Hf Hn. apply (inv_ignore _ _ _ _ o) in I. destruct I as [A B C D E F G]. destruct (s_wait s) as [w|] eqn:Ew; [|congruence]. split; cbn [express s_parts s_wait s_log].
  - reflexivity.
  - exact Hds.
  - rewrite !cnt_app, !cnt_cons, !cnt_nil. cbn. lia.
  - auto.
  - intros b H. apply in_app_or in H. destruct H as [H|[H|[]]]; [exfalso; eapply cnt_waiting; eassumption|discriminate].
  - discriminate.
  - intros j' H. apply in_app_or in H. destruct H as [H|[H|[]]]; [now apply G|injection H as <-; now right].
Qed.

Lemma nth_snoc {A} (l : list A) x k d : nth_error (l ++ [x]) k = Some d -> nth_error l k = Some d \/ (k = length l /\ d = x).
Proof.
  intro H. destruct (Nat.lt_ge_cases k (length l)) as [L|L]; [left; now rewrite nth_error_app1 in H|].
  rewrite nth_error_app2 in H by exact L. destruct (k - length l)%nat eqn:E; cbn in H; [injection H as <-; right; split; [lia|reflexivity]|destruct n; discriminate].
Qed.
Lemma inv_verified kc base os s o ds d i : inv kc base os s ds -> s_wait s <> None -> accepted kc base (os ++ [o]) d ->
  exists ds', inv kc base (os ++ [o]) (onVerified s d i) ds'.
Proof.
  intros I Hw Ha. pose proof (v_parts _ _ _ _ _ I) as Ep. assert (El : zlen (s_parts s) = Z.of_nat (length ds)) by (rewrite Ep; unfold zlen; now rewrite map_length).
  assert (Hold : forall k d0, nth_error ds k = Some d0 -> segment_of d0 (Z.of_nat k) /\ accepted kc base (os ++ [o]) d0).
  { intros k d0 H. destruct (v_segs _ _ _ _ _ I k d0 H). split; [assumption|now apply accepted_snoc]. }
  assert (Es : s = State (map d_content ds) (s_wait s) (s_log s)) by (destruct s; cbn in *; congruence).
  assert (Hnew : segment_of d (zlen (s_parts s)) -> forall k d0, nth_error (ds ++ [d]) k = Some d0 -> segment_of d0 (Z.of_nat k) /\ accepted kc base (os ++ [o]) d0).
  { intros Hs k d0 H. apply nth_snoc in H. destruct H as [H|[-> ->]]; [auto|]. rewrite <- El. auto. }
  assert (Em : s_parts s ++ [d_content d] = map d_content (ds ++ [d])) by (now rewrite map_app, Ep).
  destruct (onVerified_step s d i) as [Hn|k s' Hs Hk ->|Hs Hv Hf|b Hs Hf Hc|x Hs Hf Hc|s' Hs Hf ->].
  - exists ds. rewrite Es at 1. apply inv_finish with (ds := ds); auto. discriminate.
  - destruct (fetchNext_ok s i (d_name d) (zlen (s_parts s)) (zlen_nonneg _ _)) as (j & -> & Hj). exists ds. rewrite Es at 1. apply inv_express with (ds := ds); auto.
    + apply I, Hw.
    + exists i, d, (zlen (s_parts s)). split; [exact Ha|]. split; [apply zlen_nonneg|exact Hj].
  - exists (ds ++ [d]). rewrite Em. apply inv_finish with (ds := ds); auto. discriminate.
  - exists (ds ++ [d]). rewrite Em in *. apply concat_parts_iff in Hc. destruct Hc as (bs & Hbs & ->).
    pose proof (inv_ignore _ _ _ _ o _ I) as [A B C D E F G]. destruct (s_wait s) as [w|] eqn:Ew; [|congruence]. split; cbn [finish s_parts s_wait s_log].
    + reflexivity.
    + auto.
    + rewrite !cnt_app, !cnt_cons, !cnt_nil. cbn. lia.
    + congruence.
    + intros b H. apply in_app_or in H. destruct H as [H|[H|[]]]; [exfalso; eapply cnt_waiting; eassumption|]. injection H as <-.
      split; [exists bs; auto|]. exists ds, d. split; [reflexivity|]. rewrite El in Hf. split; [exact Hf|]. apply D. discriminate.
    + discriminate.
    + intros j' H. apply in_app_or in H. destruct H as [H|[H|[]]]; [now apply G|discriminate].
  - exists (ds ++ [d]). rewrite Em. apply inv_finish with (ds := ds); auto. discriminate.
  - rewrite Em in *. pose proof (zlen_nonneg _ (s_parts s)). destruct (fetchNext_ok (State (map d_content (ds ++ [d])) (s_wait s) (s_log s)) i (d_name d) (zlen (s_parts s) + 1)) as (j & -> & Hj); [lia|].
    exists (ds ++ [d]). apply inv_express with (ds := ds); auto.
    + intros k d0 H0. apply nth_snoc in H0. destruct H0 as [H0|[-> ->]]; [apply (v_open _ _ _ _ _ I Hw _ _ H0)|now rewrite <- El].
    + exists i, d, (zlen (s_parts s) + 1). split; [exact Ha|]. split; [lia|exact Hj].
Qed.

Lemma no_verify base os i d : s_wait (run false (start base) os) <> Some (WVerify i d).
Proof.
  revert i d. induction os as [|o os IH] using rev_ind; intros i d Ew; [discriminate|]. rewrite run_snoc in Ew. unfold step in Ew.
  destruct (s_wait (run false (start base) os)) as [[i'|i' d']|] eqn:E.
  - destruct o as [d0 v| | | | ]; try (rewrite E in Ew; discriminate); try discriminate. destruct v as [[|]|x]; try discriminate.
    unfold onVerified in Ew. destruct (negb _); [discriminate|]. destruct (rbind _ _) as [c|[]]; try discriminate. destruct (negb _).
    + unfold fetchNext in Ew. destruct (nextInterest _ _ _); discriminate.
    + destruct (_ <? _); [destruct (c_toSegment _) as [f|[]]; try discriminate; destruct (_ =? _); [destruct (concat_parts _); discriminate|]|]; unfold fetchNext in Ew; destruct (nextInterest _ _ _); discriminate.
  - eapply IH. reflexivity.
  - destruct o; rewrite E in Ew; discriminate.
Qed.
Theorem inv_run kc base os : exists ds, inv kc base os (run kc (start base) os) ds.
Proof.
  induction os as [|o os (ds & I)] using rev_ind.
  - exists []. split; cbn; try reflexivity; try discriminate.
    + intros [|]; discriminate.
    + intros _ [|]; discriminate.
    + intros b [H|[]]. discriminate.
    + intros j [H|[]]. injection H as <-. now left.
  - rewrite run_snoc. set (s := run kc (start base) os) in *. unfold step.
    assert (Es : s = State (map d_content ds) (s_wait s) (s_log s)) by (pose proof (v_parts _ _ _ _ _ I); destruct s; cbn in *; congruence).
    assert (Hold : forall k d0, nth_error ds k = Some d0 -> segment_of d0 (Z.of_nat k) /\ accepted kc base (os ++ [o]) d0).
    { intros k d0 H. destruct (v_segs _ _ _ _ _ I k d0 H). split; [assumption|now apply accepted_snoc]. }
    assert (Ign : exists ds, inv kc base (os ++ [o]) s ds) by (exists ds; now apply inv_ignore).
    assert (Fin : forall e, s_wait s <> None -> (is_terminal e = true \/ is_raise e = true) -> (forall b, e <> LComplete b) -> exists ds, inv kc base (os ++ [o]) (finish s e) ds).
    { intros e H1 H2 H3. exists ds. rewrite Es at 1. apply inv_finish with (ds := ds); auto. }
    destruct (s_wait s) as [[i|i d]|] eqn:Ew; [|destruct o|destruct o; exact Ign].
    + destruct o as [d v| | | | ]; try exact Ign; [|apply Fin; [discriminate|now left|discriminate]].
      destruct kc.
      * exists ds. pose proof (inv_ignore _ _ _ _ (FData d v) _ I) as [A B C D E F G]. rewrite Ew in *. split; cbn [s_parts s_wait s_log]; try assumption; [intros _; apply D; discriminate|].
        intros i0 d0 H. injection H as <- <-. exists v. apply in_or_app. right. now left.
      * destruct v as [[|]|x]; [|apply Fin; [discriminate|now left|discriminate]|apply Fin; [discriminate|now right|discriminate]].
        apply inv_verified with (ds := ds); [exact I|now rewrite Ew|]. exists os, i, (FData d (Ok true)), []. auto.
    + exact Ign.
    + exact Ign.
    + destruct kc.
      * apply inv_verified with (ds := ds); [exact I|now rewrite Ew|]. exists os, i, FVerified, []. split; [reflexivity|]. split; [exact Ew|]. split; [reflexivity|]. apply (v_verify _ _ _ _ _ I i d Ew).
      * exfalso. eapply no_verify; exact Ew.
    + apply Fin; [discriminate|now left|discriminate].
    + apply Fin; [discriminate|now right|discriminate].
Qed.
