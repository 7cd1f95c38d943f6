(** * Property C22: delegation sets *)
From Verif Require Import Base BaseLemmas TlvModel TlvSpec TlvProofs TlvDecProofs NameModel NameSpec NameProofs WireModel WireSpec WireProofs WireProofs2 WireProofs3 DelegModel DelegSpec.
From Coq Require Import ZifyBool Sorted.

Lemma dg_compare_cases : forall a b,
  (dg_compare a b = Ok (-1) /\ dlt a b) \/ (dg_compare a b = Ok 0 /\ fst a = fst b /\ n_key (snd a) = n_key (snd b)) \/ (dg_compare a b = Ok 1 /\ dlt b a).
Proof.
  intros [p a] [q b]. unfold dg_compare, dlt. cbn [fst snd]. destruct (p <? q) eqn:E1; [left; split; [reflexivity|lia]|].
  destruct (q <? p) eqn:E2; [right; right; split; [reflexivity|lia]|]. rewrite n_compare_cmp.
  destruct (n_cmp_cases a b) as [[-> H]|[[-> H]|[-> H]]]; [left|right; left|right; right]; split; try reflexivity; try (right; split; [lia|assumption]); try (split; [lia|assumption]).
Qed.
Lemma dlt_tra : forall a b c, dlt a b -> dlt b c -> dlt a c.
Proof.
  intros [p a] [q b] [r c]. unfold dlt. cbn [fst snd]. intros [H|[-> H]] [H'|[-> H']]; try lia; try (left; lia).
  right. split; [reflexivity|]. eapply name_lt_tra; eauto.
Qed.
Lemma dlt_irr : forall a, ~ dlt a a.
Proof. intros a [H|[_ H]]; [lia|]. exact (name_lt_irr _ H). Qed.

Definition dvalid (d : delegation) : Prop := Forall c_valid (snd d).

Lemma ds_insert_spec : forall new ds, StronglySorted dlt ds -> Forall dvalid ds -> dvalid new -> ~ In (snd new) (map snd ds) ->
  exists r, ds_insert new ds = Ok r /\ StronglySorted dlt r /\ Forall dvalid r /\ (forall x, In x r <-> x = new \/ In x ds).
Proof.
  induction ds as [|d ds IH]; intros S V Vn N.
  - exists [new]. split; [reflexivity|]. split; [repeat constructor|]. split; [repeat constructor; exact Vn|]. intros x. cbn. firstorder.
  - cbn [ds_insert]. pose proof (StronglySorted_inv S) as [S' F]. pose proof (Forall_inv V) as Vd. apply Forall_inv_tail in V as V'.
    destruct (dg_compare_cases d new) as [[-> L]|[[-> [E1 E2]]|[-> L]]]; cbn [rbind Z.leb Z.compare].
    + destruct (IH S' V' Vn) as (r & -> & Sr & Vr & Ir). { intros K. apply N. cbn. now right. }
      exists (d :: r). split; [reflexivity|]. split.
      { constructor; [exact Sr|]. apply Forall_forall. intros x Hx. apply Ir in Hx. destruct Hx as [->|Hx]; [exact L|]. rewrite Forall_forall in F. auto. }
      split; [constructor; assumption|]. intros x. cbn. rewrite Ir. firstorder.
    + exfalso. apply N. cbn. left. apply n_valid_key_inj; assumption.
    + exists (new :: d :: ds). split; [reflexivity|]. split.
      { constructor; [exact S|]. constructor; [exact L|]. eapply Forall_impl; [|exact F]. intros a H. eapply dlt_tra; eauto. }
      split; [constructor; assumption|]. intros x. cbn. firstorder.
Qed.

Lemma filter_sorted : forall f ds, StronglySorted dlt ds -> StronglySorted dlt (filter f ds).
Proof.
  induction ds as [|d ds IH]; intros S; [constructor|]. apply StronglySorted_inv in S. destruct S as [S F]. cbn. destruct (f d); [|auto].
  constructor; [auto|]. apply Forall_forall. intros x Hx. apply filter_In in Hx. rewrite Forall_forall in F. apply F, Hx.
Qed.
Lemma valid_equals : forall a b, Forall c_valid a -> Forall c_valid b -> n_equals a b = true <-> a = b.
Proof.
  intros a b Ha Hb. rewrite n_equals_iff_key by assumption. split; [|intros ->; reflexivity]. apply n_valid_key_inj; assumption.
Qed.
Lemma ds_remove_In : forall n ds x, Forall dvalid ds -> Forall c_valid n -> (In x (fst (ds_remove n ds)) <-> In x ds /\ snd x <> n).
Proof.
  intros n ds x V Vn. unfold ds_remove. cbn [fst]. rewrite filter_In. rewrite Forall_forall in V. split; intros [H K]; (split; [exact H|]).
  - intros E. rewrite negb_true_iff in K. rewrite (proj2 (valid_equals (snd x) n (V x H) Vn) E) in K. discriminate.
  - rewrite negb_true_iff. destruct (n_equals (snd x) n) eqn:E; [|reflexivity]. exfalso. apply K. apply (valid_equals _ _ (V x H) Vn), E.
Qed.

Theorem C22_sorted_map : forall ops, Forall ds_op_valid ops ->
  exists ds, ds_run ops [] = Ok ds /\
    StronglySorted dlt ds /\ NoDup (map snd ds) /\
    (forall p n, In (p, n) ds <-> pref_after ops n p).
Proof.
  intros ops H.
  assert (G : exists ds, ds_run ops [] = Ok ds /\ StronglySorted dlt ds /\ Forall dvalid ds /\ (forall p n, In (p, n) ds <-> pref_after ops n p)).
  { induction ops as [|o h IH] using rev_ind.
    - exists []. split; [reflexivity|]. split; [constructor|]. split; [constructor|]. intros p n. split; [intros []|]. intros K.
      inversion K as [? ? ? E|? ? ? ? ? ? ? E|? ? ? ? ? ? E]; symmetry in E; destruct h; discriminate.
    - apply Forall_app in H. destruct H as [Hh Ho]. apply Forall_inv in Ho. destruct (IH Hh) as (ds & E & S & V & M). unfold ds_run in *.
      rewrite fold_left_app, E. cbn [fold_left rbind]. clear IH E.
      assert (P : forall n p, pref_after (h ++ [o]) n p <->
        match o with DsAdd q m => (n = m /\ p = q) \/ (n <> m /\ pref_after h n p) | DsRemove m => n <> m /\ pref_after h n p | DsClear => False end).
      { intros n p. split.
        - intros K. inversion K as [h' ? ? E|h' ? ? ? ? ? ? E|h' ? ? ? ? ? E]; subst; apply app_inj_tail in E; destruct E as [-> E]; subst; auto.
        - destruct o as [q m|m|]; [intros [[-> ->]|[N K]]|intros [N K]|intros []]; constructor; auto. }
      destruct o as [q m|m|]; cbn [ds_step ds_op_valid] in *.
      + unfold ds_add. assert (V1 : Forall dvalid (fst (ds_remove m ds))).
        { apply Forall_forall. intros x Hx. apply ds_remove_In in Hx; [|assumption..]. rewrite Forall_forall in V. apply V, Hx. }
        destruct (ds_insert_spec (q, m) (fst (ds_remove m ds)) (filter_sorted _ _ S) V1 Ho) as (r & -> & Sr & Vr & Ir).
        { intros K. apply in_map_iff in K. destruct K as (x & Ex & Hx). apply ds_remove_In in Hx; [|assumption..]. cbn [snd] in Ex. tauto. }
        exists r. split; [reflexivity|]. split; [exact Sr|]. split; [exact Vr|]. intros p n. rewrite Ir, ds_remove_In by assumption.
        rewrite P, <- M. cbn [snd]. split; [intros [E|[A B]]; [injection E; auto|auto]|intros [[-> ->]|[A B]]; auto].
      + exists (fst (ds_remove m ds)). split; [reflexivity|]. split; [apply filter_sorted, S|]. split.
        { apply Forall_forall. intros x Hx. apply ds_remove_In in Hx; [|assumption..]. rewrite Forall_forall in V. apply V, Hx. }
        intros p n. rewrite ds_remove_In by assumption. rewrite P, <- M. cbn [snd]. tauto.
      + exists []. split; [reflexivity|]. split; [constructor|]. split; [constructor|]. intros p n. rewrite P. cbn. tauto. }
  destruct G as (ds & E & S & V & M). exists ds. split; [exact E|]. split; [exact S|]. split; [|exact M].
  (* one entry per name: the preference of a name is unique *)
  assert (U : forall h n p q, pref_after h n p -> pref_after h n q -> p = q).
  { intros h n p q K. revert q. induction K as [h p n|h p n m q K IH N|h n m q K IH N]; intros q' K'.
    - inversion K' as [h' ? ? E'|h' ? ? ? ? ? N' E'|h' ? ? ? ? ? E']; subst; apply app_inj_tail in E'; destruct E' as [_ E']; [congruence|injection E' as -> ->; congruence|discriminate].
    - inversion K' as [h' ? ? E'|h' ? ? ? ? K2 N' E'|h' ? ? ? ? ? E']; subst; apply app_inj_tail in E'; destruct E' as [E1 E']; subst; [injection E' as -> ->; congruence|auto|discriminate].
    - inversion K' as [h' ? ? E'|h' ? ? ? ? K2 N' E'|h' ? ? ? K2 ? E']; subst; apply app_inj_tail in E'; destruct E' as [E1 E']; subst; [discriminate|discriminate|auto]. }
  clear E V H. assert (M1 : forall p q n, In (p, n) ds -> In (q, n) ds -> p = q). { intros p q n A B. apply M in A, B. eauto. }
  clear M U. induction ds as [|[p n] ds IH]; [constructor|]. apply StronglySorted_inv in S. destruct S as [S F]. cbn. constructor.
  - intros K. apply in_map_iff in K. destruct K as ([q m] & Ex & Hx). cbn in Ex. subst m.
    assert (p = q) by (apply (M1 p q n); cbn; auto). subst q. rewrite Forall_forall in F. exact (dlt_irr _ (F _ Hx)).
  - apply IH; [exact S|]. intros. apply (M1 p0 q n0); cbn; auto.
Qed.

(** find returns the index of the first delegation with the name, or -1. *)
Lemma ds_find_from_spec : forall n ds i, Forall dvalid ds -> Forall c_valid n ->
  (ds_find_from i n ds = -1 /\ ~ In n (map snd ds)) \/
  (exists a d b, ds = a ++ d :: b /\ ds_find_from i n ds = i + zlen a /\ snd d = n /\ ~ In n (map snd a)).
Proof.
  induction ds as [|d ds IH]; intros i V Vn; [left; split; [reflexivity|intros []]|]. cbn [ds_find_from].
  pose proof (Forall_inv V) as Vd. apply Forall_inv_tail in V. destruct (n_equals (snd d) n) eqn:E.
  - right. exists [], d, ds. cbn. split; [reflexivity|]. split; [change (zlen (@nil delegation)) with 0; lia|]. split; [|intros []].
    apply (valid_equals _ _ Vd Vn), E.
  - assert (N : snd d <> n). { intros K. apply (valid_equals _ _ Vd Vn) in K. congruence. }
    destruct (IH (i + 1) V Vn) as [[-> K]|(a & d' & b & -> & -> & Ed & K)].
    + left. split; [reflexivity|]. cbn. tauto.
    + right. exists (d :: a), d', b. split; [reflexivity|]. split; [zlia|]. split; [exact Ed|]. cbn. tauto.
Qed.
Theorem C22_find : forall n ds, Forall (fun d => Forall c_valid (snd d)) ds -> Forall c_valid n ->
  (ds_find n ds = -1 /\ ~ In n (map snd ds)) \/
  (exists a d b, ds = a ++ d :: b /\ ds_find n ds = zlen a /\ snd d = n /\ ~ In n (map snd a)).
Proof. intros n ds V Vn. exact (ds_find_from_spec n ds 0 V Vn). Qed.

(** Encoding then decoding restores the list in its order, also an unsorted one. *)
Theorem C22_wire_round_trip : forall ds, Forall deleg_ok ds -> zlen (elems (map deleg_el ds)) < 2 ^ 64 ->
  exists w, encodeDelegationSet ds = Ok w /\ w = elems (map deleg_el ds) /\ decodeDelegationSet w = Ok ds.
Proof.
  intros ds H L. exists (elems (map deleg_el ds)). unfold encodeDelegationSet. rewrite enc_ds_ok, app_nil_r by exact H.
  split; [reflexivity|]. split; [reflexivity|]. unfold decodeDelegationSet. rewrite (dec_ds_ok ds); [reflexivity|exact H|].
  apply At_whole. apply small_of_len; [apply ds_types|exact L].
Qed.

(** The documentation says elements after the delegations are ignored; they are not. *)
Theorem C22_trailing_ignored_refuted : exists ds w extra, encodeDelegationSet ds = Ok w /\ Forall deleg_ok ds /\
  extra = tlv 100 [] /\ decodeDelegationSet (w ++ extra) = Err ValueError.
Proof.
  exists [(7, [c_generic [65]])], (elems (map deleg_el [(7, [c_generic [65]])])), (tlv 100 []).
  split; [vm_compute; reflexivity|]. split; [|split; [reflexivity|vm_compute; reflexivity]].
  apply Forall_cons; [|apply Forall_nil]. split; [unfold u64; cbn; lia|]. apply Forall_cons; [|apply Forall_nil].
  split; [split; [apply Forall_cons; [unfold is_byte; lia|apply Forall_nil]|right; split; [right; right|]; reflexivity]|].
  split; [reflexivity|]. cbn. unfold CT_IMPLICIT, CT_PARAMS. intros [K|K]; discriminate K.
Qed.

Example C22_example :
  let a := [c_generic [65]] in let b := [c_generic [66]] in let c := [c_generic [67]] in
  ds_run [DsAdd 10 b; DsAdd 10 a; DsAdd 5 c; DsAdd 20 a; DsRemove c; DsAdd 10 c] [] = Ok [(10, b); (10, c); (20, a)].
Proof. vm_compute. reflexivity. Qed.
Example C22_example_hyp : Forall ds_op_valid [DsAdd 10 [c_generic [66]]; DsAdd 10 [c_generic [65]]; DsRemove [c_generic [66]]].
Proof.
  repeat (apply Forall_cons; [cbn [ds_op_valid]; apply Forall_cons; [|apply Forall_nil];
    split; [apply Forall_cons; [unfold is_byte; lia|apply Forall_nil]|right; split; [right; right|]; reflexivity]|]). apply Forall_nil.
Qed.
Print Assumptions C22_sorted_map.
Print Assumptions C22_find.
Print Assumptions C22_wire_round_trip.
Print Assumptions C22_trailing_ignored_refuted.
