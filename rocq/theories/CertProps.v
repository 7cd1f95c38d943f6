(** * Property C41: the certificate cache *)
From Verif Require Import Base BaseLemmas NameModel NameSpec NameProofs DictModel DictProofs PsyncProofs CertModel CertSpec CertProofs.
From Coq Require Import Sorting.Sorted.
Local Open Scope res_scope.
Notation sorted := (StronglySorted canon_lt).
Lemma comp_eq_dec : forall a b : comp, {a = b} + {a <> b}.
Proof. decide equality; [apply (list_eq_dec Z.eq_dec)|apply Z.eq_dec|apply Z.eq_dec]. Defined.

Section C41.
Context {C I : Type}.
Variable ct_name : C -> name.
Variable ct_notAfter : C -> res Z.
Variable ct_check : C -> res unit.
Variable i_name : I -> name.
Variable i_matches : I -> C -> bool.
Notation taken := (taken ct_notAfter ct_check).
Notation until := (until ct_notAfter).
Notation cached := (cached ct_name ct_notAfter ct_check).
Notation cc_run := (cc_run ct_name ct_notAfter ct_check).
Notation cc_insert := (cc_insert ct_name ct_notAfter ct_check).

Record inv (s : cache C) : Prop := Inv {
  inv_dom : dom nval (cc_dict s);
  inv_uniq : uniq (cc_dict s);
  inv_sorted : sorted (cc_keys s);
  inv_keys : forall k, In k (cc_keys s) <-> In k (dkeys (cc_dict s));
  inv_next : forall k c r, In (k, (c, r)) (cc_dict s) -> cc_next s <= r;
  inv_name : forall k c r, In (k, (c, r)) (cc_dict s) -> ct_name c = k }.

Lemma in_keys : forall (V : Type) (d : dict name V) k, In k (dkeys d) <-> exists v, In (k, v) d.
Proof.
  intros V d k. unfold dkeys. rewrite in_map_iff. split; [intros ([k' v] & <- & I'); eauto|]. intros [v I']. exists (k, v). auto.
Qed.
Lemma keys_val : forall s, inv s -> Forall nval (cc_keys s).
Proof.
  intros s H. apply Forall_forall. intros k Hk. apply (inv_keys s H) in Hk. apply in_keys in Hk. destruct Hk as [v Hk]. pose proof (inv_dom s H) as D. unfold dom in D. rewrite Forall_forall in D. exact (D _ Hk).
Qed.

Definition entries (s : cache C) (k : name) (c : C) (r : Z) : Prop := In (k, (c, r)) (cc_dict s).

Lemma insert_inv : forall s now c, inv s -> nval (ct_name c) ->
  let s' := fst (cc_insert s now c) in inv s' /\ cc_max s' = cc_max s /\
  (forall k c' r, entries s' k c' r <-> (taken now c /\ c' = c /\ k = ct_name c /\ until (cc_max s) now c r) \/ (~ (taken now c /\ k = ct_name c) /\ entries s k c' r)).
Proof.
  intros s now c H V. cbv zeta. unfold CertModel.cc_insert, taken, CertSpec.taken, until, CertSpec.until, entries.
  destruct (ct_notAfter c) as [na|e] eqn:E; cbn [fst].
  2: { split; [exact H|]. split; [reflexivity|]. intros k c' r. split; [intros I'; right; split; [|exact I']; intros ((na & X & _) & _); discriminate|].
       intros [((na & X & _) & _)|[_ I']]; [discriminate|exact I']. }
  destruct (na <? now) eqn:En; cbn [fst].
  { split; [exact H|]. split; [reflexivity|]. intros k c' r. split; [intros I'; right; split; [|exact I']; intros ((na' & X & L & _) & _); injection X as <-; lia|].
    intros [((na' & X & L & _) & _)|[_ I']]; [injection X as <-; lia|exact I']. }
  set (rem := Z.min na (now + cc_max s)) in *.
  set (s1 := if rem <? cc_next s then Cache (cc_dict s) (cc_keys s) rem (cc_max s) else s).
  assert (S1 : cc_dict s1 = cc_dict s /\ cc_keys s1 = cc_keys s /\ cc_max s1 = cc_max s /\ cc_next s1 <= rem /\ cc_next s1 <= cc_next s).
  { unfold s1. destruct (rem <? cc_next s) eqn:Er; cbn [cc_dict cc_keys cc_max cc_next]; repeat (split; [reflexivity|]); lia. }
  destruct S1 as (D1 & K1 & M1 & N1 & N2). clearbody s1.
  assert (H1 : inv s1).
  { destruct H as [a b c0 d e f]. constructor; rewrite ?D1, ?K1; auto. intros k c' r I'. specialize (e _ _ _ I'). lia. }
  destruct (ct_check c) as [[]|e] eqn:Ec; cbn [fst].
  2: { split; [exact H1|]. split; [exact M1|]. rewrite D1. intros k c' r. split; [intros I'; right; split; [|exact I']; intros ((na' & _ & _ & X) & _); discriminate|].
       intros [((na' & _ & _ & X) & _)|[_ I']]; [discriminate|exact I']. }
  assert (Tk : exists na0, Ok na = Ok na0 /\ now <= na0 /\ Ok tt = Ok tt) by (exists na; split; [reflexivity|]; split; [lia|reflexivity]).
  rewrite <- D1. set (d' := dset n_equals (cc_dict s1) (ct_name c) (c, rem)).
  assert (Dd : dom nval d') by (apply dset_dom; [apply H1|exact V]).
  assert (Ud : uniq d') by (apply (dset_uniq n_equals nval Heqn); [apply H1|exact V|apply H1]).
  assert (Ent : forall k c' r, In (k, (c', r)) d' <-> (exists na0, Ok na = Ok na0 /\ now <= na0 /\ Ok tt = Ok tt) /\ c' = c /\ k = ct_name c /\ (exists na0, Ok na = Ok na0 /\ r = Z.min na0 (now + cc_max s)) \/ ~ ((exists na0, Ok na = Ok na0 /\ now <= na0 /\ Ok tt = Ok tt) /\ k = ct_name c) /\ In (k, (c', r)) (cc_dict s1)).
  { intros k c' r.
    assert (Main : nval k -> (In (k, (c', r)) d' <-> (c' = c /\ k = ct_name c /\ r = rem) \/ (k <> ct_name c /\ In (k, (c', r)) (cc_dict s1)))).
    { intros Vk. rewrite <- (dget_iff n_equals nval Heqn d' k _ Dd Ud Vk), <- (dget_iff n_equals nval Heqn (cc_dict s1) k _ (inv_dom _ H1) (inv_uniq _ H1) Vk).
      unfold d'. rewrite (dset_get n_equals nval Heqn) by (try apply H1; assumption). destruct (eqb_case n_equals nval Heqn _ _ V Vk) as [[Ek Eb]|[Nk Eb]]; rewrite Eb.
      - subst k. split; [intros [= <- <-]; left; auto|]. intros [(-> & _ & ->)|[X _]]; [reflexivity|congruence].
      - split; [intros X; right; split; [congruence|exact X]|]. intros [(_ & X & _)|[_ X]]; [congruence|exact X]. }
    assert (R : (exists na0, Ok na = Ok na0 /\ r = Z.min na0 (now + cc_max s)) <-> r = rem).
    { split; [intros (na0 & [= <-] & ->); reflexivity|]. intros ->. exists na. auto. }
    rewrite R. split.
    - intros I'. assert (Vk : nval k) by (unfold dom in Dd; rewrite Forall_forall in Dd; exact (Dd _ I')). apply Main in I'; [|exact Vk]. destruct I' as [I'|I']; [left; tauto|right; tauto].
    - intros [(_ & Hc & Hk & Hr)|[N I']]; (apply Main; [|]).
      + rewrite Hk. exact V.
      + left. auto.
      + pose proof (inv_dom _ H1) as D. unfold dom in D. rewrite Forall_forall in D. exact (D _ I').
      + right. split; [|exact I']. intros X. apply N. auto. }
  destruct (din n_equals (cc_dict s1) (ct_name c)) eqn:Di; cbn [fst cc_dict cc_max].
  - split; [|split; [exact M1|exact Ent]]. pose proof (proj1 (din_iff n_equals nval Heqn _ _ (inv_dom _ H1) V) Di) as Ik. constructor; cbn [cc_dict cc_keys cc_next]; [exact Dd|exact Ud|apply H1| | |].
    + intros k. rewrite (inv_keys _ H1). unfold d'. rewrite (dset_keys n_equals nval Heqn) by (try apply H1; exact V). rewrite Di. reflexivity.
    + intros k c' r I'. apply Ent in I'. destruct I' as [(_ & _ & _ & na0 & [= <-] & ->)|[_ I']]; [exact N1|apply (inv_next _ H1) in I'; lia].
    + intros k c' r I'. apply Ent in I'. destruct I' as [(_ & -> & -> & _)|[_ I']]; [reflexivity|exact (inv_name _ H1 _ _ _ I')].
  - split; [|split; [exact M1|exact Ent]].
    assert (Nk : ~ In (ct_name c) (cc_keys s1)) by (intros X; apply (inv_keys _ H1) in X; apply (din_iff n_equals nval Heqn _ _ (inv_dom _ H1) V) in X; congruence).
    constructor; cbn [cc_dict cc_keys cc_next]; [exact Dd|exact Ud|apply insort_sorted; [apply H1|exact V|apply keys_val; exact H1|exact Nk]| | |].
    + intros k. rewrite insort_in, (inv_keys _ H1). unfold d'. rewrite (dset_keys n_equals nval Heqn) by (try apply H1; exact V). rewrite Di. rewrite in_app_iff. cbn [In]. intuition congruence.
    + intros k c' r I'. apply Ent in I'. destruct I' as [(_ & _ & _ & na0 & [= <-] & ->)|[_ I']]; [exact N1|apply (inv_next _ H1) in I'; lia].
    + intros k c' r I'. apply Ent in I'. destruct I' as [(_ & -> & -> & _)|[_ I']]; [reflexivity|exact (inv_name _ H1 _ _ _ I')].
Qed.

(** the loop of _refresh *)
Definition dead (now : Z) (d : dict name (C * Z)) (k : name) : bool := match dget n_equals d k with Some e => snd e <=? now | None => false end.
Lemma pop_last : forall (a : list name) k rest, list_pop ((a ++ [k]) ++ rest) (length a) = a ++ rest.
Proof.
  intros a k rest. unfold list_pop. rewrite <- app_assoc. cbn [app]. rewrite firstn_app, Nat.sub_diag, firstn_all. cbn [firstn]. rewrite app_nil_r. f_equal.
  rewrite skipn_app. rewrite skipn_all2 by lia. replace (S (length a) - length a)%nat with 1%nat by lia. reflexivity.
Qed.
Lemma refresh_loop_ok : forall now pre rest d next, dom nval d -> uniq d -> NoDup pre -> Forall nval pre -> (forall k, In k pre -> In k (dkeys d)) ->
  exists d' next', refresh_loop (length pre) now d (pre ++ rest) next = Ok (d', filter (fun k => negb (dead now d k)) pre ++ rest, next') /\
    dom nval d' /\ uniq d' /\ next' <= next /\
    (forall k, nval k -> dget n_equals d' k = if in_dec (list_eq_dec comp_eq_dec) k pre then (if dead now d k then None else dget n_equals d k) else dget n_equals d k) /\
    (forall k c r, In k pre -> dget n_equals d k = Some (c, r) -> now < r -> next' <= r).
Proof.
  intros now. induction pre as [|k pre IH] using rev_ind; intros rest d next Hd Hu N Hv Hk.
  - exists d, next. cbn [length refresh_loop app filter]. split; [reflexivity|]. split; [exact Hd|]. split; [exact Hu|]. split; [lia|]. split; [intros k Vk; reflexivity|intros k c r []].
  - apply Forall_app in Hv. destruct Hv as [Hv Hvk]. inversion Hvk as [|? ? Vk _]; subst.
    assert (Nk : ~ In k pre) by (apply NoDup_remove_2 in N; rewrite app_nil_r in N; exact N). apply NoDup_remove_1 in N. rewrite app_nil_r in N.
    assert (En : nth_error ((pre ++ [k]) ++ rest) (length pre) = Some k) by (rewrite <- app_assoc; rewrite nth_error_app2 by lia; rewrite Nat.sub_diag; reflexivity).
    rewrite app_length, Nat.add_1_r. cbn [refresh_loop]. rewrite En.
    assert (Ik : In k (dkeys d)) by (apply Hk; apply in_or_app; right; left; reflexivity).
    destruct (dget n_equals d k) as [[c r]|] eqn:G; [|apply (dget_none n_equals nval Heqn) in G; [contradiction|assumption|assumption]].
    unfold dindex. rewrite G. cbn [rbind snd]. rewrite filter_app. cbn [filter].
    assert (Dk : dead now d k = (r <=? now)) by (unfold dead; rewrite G; reflexivity). rewrite Dk.
    destruct (r <=? now) eqn:Er; cbn [negb].
    + unfold ddel. rewrite (proj2 (din_iff n_equals nval Heqn d k Hd Vk) Ik). cbn [rbind]. rewrite pop_last.
      set (d1 := dremove n_equals d k).
      assert (Hd1 : dom nval d1) by (apply dremove_dom; exact Hd). assert (Hu1 : uniq d1) by (apply dremove_uniq; exact Hu).
      assert (G1 : forall k', nval k' -> dget n_equals d1 k' = if n_equals k k' then None else dget n_equals d k') by (intros k' Vk'; unfold d1; apply (dremove_get n_equals nval Heqn); assumption).
      assert (Ne : forall k', In k' pre -> n_equals k k' = false) by (intros k' I'; apply (eqb_neq n_equals nval Heqn); [exact Vk|rewrite Forall_forall in Hv; auto|intros ->; contradiction]).
      assert (Gp : forall k', In k' pre -> dget n_equals d1 k' = dget n_equals d k') by (intros k' I'; rewrite G1 by (rewrite Forall_forall in Hv; auto); rewrite Ne by exact I'; reflexivity).
      destruct (IH rest d1 next Hd1 Hu1 N Hv) as (d' & next' & E & A1 & A2 & A3 & A4 & A5).
      { intros k' I'. assert (I2 : In k' (dkeys d)) by (apply Hk; apply in_or_app; left; exact I'). apply in_keys in I2. destruct I2 as [v I2].
        apply in_keys. exists v. apply (dget_iff n_equals nval Heqn); [exact Hd1|exact Hu1|rewrite Forall_forall in Hv; auto|]. rewrite Gp by exact I'. apply (in_dget n_equals nval Heqn); assumption. }
      assert (Fe : filter (fun k0 => negb (dead now d1 k0)) pre = filter (fun k0 => negb (dead now d k0)) pre).
      { apply filter_ext_in. intros k' I'. unfold dead. rewrite Gp by exact I'. reflexivity. }
      rewrite Fe in E. exists d', next'. split; [rewrite app_nil_r; exact E|]. split; [exact A1|]. split; [exact A2|]. split; [exact A3|]. split.
      * intros k' Vk'. rewrite A4 by exact Vk'. rewrite G1 by exact Vk'.
        destruct (eqb_case n_equals nval Heqn k k' Vk Vk') as [[<- Eb]|[Nkk Eb]]; rewrite Eb.
        -- destruct (in_dec (list_eq_dec comp_eq_dec) k pre) as [X|_]; [contradiction|]. destruct (in_dec (list_eq_dec comp_eq_dec) k (pre ++ [k])) as [_|X]; [|elim X; apply in_or_app; right; left; reflexivity]. rewrite Dk. reflexivity.
        -- assert (Dd : dead now d1 k' = dead now d k') by (unfold dead; rewrite G1 by exact Vk'; rewrite Eb; reflexivity). rewrite Dd.
           destruct (in_dec (list_eq_dec comp_eq_dec) k' pre) as [X|X]; destruct (in_dec (list_eq_dec comp_eq_dec) k' (pre ++ [k])) as [Y|Y]; try reflexivity.
           ++ elim Y. apply in_or_app. left. exact X.
           ++ apply in_app_or in Y. destruct Y as [Y|[Y|[]]]; [contradiction|congruence].
      * intros k' c' r' I' G' L. apply in_app_or in I'. destruct I' as [I'|[<-|[]]]; [apply (A5 k' c'); [exact I'|rewrite Gp by exact I'; exact G'|exact L]|].
        rewrite G in G'. injection G' as <- <-. lia.
    + destruct (IH (k :: rest) d (Z.min next r) Hd Hu N Hv) as (d' & next' & E & A1 & A2 & A3 & A4 & A5); [intros k' I'; apply Hk; apply in_or_app; left; exact I'|].
      exists d', next'. rewrite <- !app_assoc. cbn [app]. split; [exact E|]. split; [exact A1|]. split; [exact A2|]. split; [lia|]. split.
      * intros k' Vk'. rewrite A4 by exact Vk'. destruct (in_dec (list_eq_dec comp_eq_dec) k' pre) as [X|X]; destruct (in_dec (list_eq_dec comp_eq_dec) k' (pre ++ [k])) as [Y|Y]; try reflexivity.
        -- elim Y. apply in_or_app. left. exact X.
        -- apply in_app_or in Y. destruct Y as [Y|[Y|[]]]; [contradiction|subst k'; rewrite Dk; reflexivity].
      * intros k' c' r' I' G' L. apply in_app_or in I'. destruct I' as [I'|[<-|[]]]; [apply (A5 k' c'); assumption|]. rewrite G in G'. injection G' as <- <-. lia.
Qed.
Lemma refresh_inv : forall s now, inv s -> exists s', cc_refresh s now = Ok s' /\ inv s' /\ cc_max s' = cc_max s /\
  (forall k c r, entries s' k c r <-> entries s k c r /\ now < r).
Proof.
  intros s now H. unfold cc_refresh. destruct (now <? cc_next s) eqn:E.
  - exists s. split; [reflexivity|]. split; [exact H|]. split; [reflexivity|]. intros k c r. split; [|tauto]. intros I'. split; [exact I'|]. apply (inv_next _ H) in I'. lia.
  - destruct (refresh_loop_ok now (cc_keys s) [] (cc_dict s) FLOAT_MAX (inv_dom _ H) (inv_uniq _ H) (sorted_nodup _ (inv_sorted _ H)) (keys_val _ H)) as (d' & next' & El & A1 & A2 & A3 & A4 & A5).
    { intros k Hk. apply (inv_keys _ H). exact Hk. }
    rewrite !app_nil_r in El. rewrite El. cbn [rbind]. eexists. split; [reflexivity|].
    assert (Ent : forall k c r, In (k, (c, r)) d' <-> In (k, (c, r)) (cc_dict s) /\ now < r).
    { intros k c r. assert (Main : nval k -> (In (k, (c, r)) d' <-> In (k, (c, r)) (cc_dict s) /\ now < r)).
      { intros Vk. rewrite <- (dget_iff n_equals nval Heqn _ k _ A1 A2 Vk), <- (dget_iff n_equals nval Heqn _ k _ (inv_dom _ H) (inv_uniq _ H) Vk). rewrite A4 by exact Vk. unfold dead.
        destruct (in_dec (list_eq_dec comp_eq_dec) k (cc_keys s)) as [X|X].
        - destruct (dget n_equals (cc_dict s) k) as [[c0 r0]|]; [|split; [discriminate|intros [? _]; discriminate]]. cbn [snd]. destruct (r0 <=? now) eqn:Er.
          + split; [discriminate|]. intros [[= <- <-] L]. lia.
          + split; [intros [= <- <-]; split; [reflexivity|lia]|]. intros [X1 _]. exact X1.
        - assert (G : dget n_equals (cc_dict s) k = None) by (apply (dget_none n_equals nval Heqn); [apply H|exact Vk|]; intros Y; apply X; apply (inv_keys _ H); exact Y). rewrite G.
          split; [discriminate|intros [? _]; discriminate]. }
      pose proof (inv_dom _ H) as D. unfold dom in A1, D. rewrite Forall_forall in A1, D.
      split; [intros I'; apply Main; [exact (A1 _ I')|exact I']|]. intros [I' L]. apply Main; [exact (D _ I')|]. auto. }
    split; [|split; [reflexivity|exact Ent]]. constructor; cbn [cc_dict cc_keys cc_next].
    + exact A1.
    + exact A2.
    + apply filter_sorted. apply H.
    + intros k. rewrite filter_In, (inv_keys _ H). rewrite !in_keys. split.
      * intros [[[c r] I'] Dk]. exists (c, r). apply Ent. split; [exact I'|]. unfold dead in Dk. rewrite (in_dget n_equals nval Heqn _ _ _ (inv_dom _ H) (inv_uniq _ H) I') in Dk. cbn [snd] in Dk. destruct (r <=? now) eqn:Er; [discriminate|lia].
      * intros [[c r] I']. apply Ent in I'. destruct I' as [I' L]. split; [eauto|]. unfold dead. rewrite (in_dget n_equals nval Heqn _ _ _ (inv_dom _ H) (inv_uniq _ H) I'). cbn [snd]. replace (r <=? now) with false by lia. reflexivity.
    + intros k c r I'. apply Ent in I'. destruct I' as [I' L]. apply (A5 k c); [|apply (in_dget n_equals nval Heqn); [apply H|apply H|exact I']|exact L].
      apply (inv_keys _ H). apply in_keys. eauto.
    + intros k c r I'. apply Ent in I'. apply (inv_name _ H k c r). apply I'.
Qed.
Lemma delete_inv : forall s n, inv s -> nval n -> inv (cc_delete s n) /\ (forall k c r, entries (cc_delete s n) k c r <-> entries s k c r /\ k <> n).
Proof.
  intros s n H V. unfold entries, cc_delete. cbn [cc_dict].
  assert (A1 : dom nval (dremove n_equals (cc_dict s) n)) by (apply dremove_dom; apply H). assert (A2 : uniq (dremove n_equals (cc_dict s) n)) by (apply dremove_uniq; apply H).
  assert (Ent : forall k c r, In (k, (c, r)) (dremove n_equals (cc_dict s) n) <-> In (k, (c, r)) (cc_dict s) /\ k <> n).
  { intros k c r. assert (Main : nval k -> (In (k, (c, r)) (dremove n_equals (cc_dict s) n) <-> In (k, (c, r)) (cc_dict s) /\ k <> n)).
    { intros Vk. rewrite <- (dget_iff n_equals nval Heqn _ k _ A1 A2 Vk), <- (dget_iff n_equals nval Heqn _ k _ (inv_dom _ H) (inv_uniq _ H) Vk).
      rewrite (dremove_get n_equals nval Heqn) by (try apply H; assumption). destruct (eqb_case n_equals nval Heqn n k V Vk) as [[-> Eb]|[Nk Eb]]; rewrite Eb; [split; [discriminate|tauto]|].
      split; [intros X; split; [exact X|congruence]|tauto]. }
    pose proof (inv_dom _ H) as D. unfold dom in A1, D. rewrite Forall_forall in A1, D.
    split; [intros I'; apply Main; [exact (A1 _ I')|exact I']|]. intros [I' L]. apply Main; [exact (D _ I')|]. auto. }
  split; [|exact Ent]. constructor; cbn [cc_dict cc_keys cc_next]; [exact A1|exact A2|apply list_remove_sorted; apply H| | |].
  - intros k. rewrite list_remove_in by (try apply keys_val; try apply sorted_nodup; try apply H; assumption). rewrite (inv_keys _ H), !in_keys. split.
    + intros [[[c r] I'] N]. exists (c, r). apply Ent. auto.
    + intros [[c r] I']. apply Ent in I'. destruct I' as [I' N]. eauto.
  - intros k c r I'. apply Ent in I'. apply (inv_next _ H k c r). apply I'.
  - intros k c r I'. apply Ent in I'. apply (inv_name _ H k c r). apply I'.
Qed.
Lemma clear_inv : forall s, inv (cc_clear s).
Proof. intros s. constructor; cbn [cc_clear cc_new cc_dict cc_keys dkeys map In]; try constructor; intros; contradiction. Qed.
Lemma new_inv : forall L, inv (cc_new L).
Proof. intros s. constructor; cbn [cc_clear cc_new cc_dict cc_keys dkeys map In]; try constructor; intros; contradiction. Qed.

(** ** The history *)
Definition good (ops : list (@cc_op C)) : Prop := forall o, In o ops -> match o with CInsert _ c => nval (ct_name c) | CDelete n => nval n | _ => True end.
Lemma snoc_cases : forall (A : Type) (ops : list A) o o1 x o2, ops ++ [o] = o1 ++ x :: o2 -> (o2 = [] /\ ops = o1 /\ o = x) \/ (exists o2', o2 = o2' ++ [o] /\ ops = o1 ++ x :: o2').
Proof.
  intros A ops o o1 x o2 E. destruct o2 as [|y o2 _] using rev_ind.
  - apply app_inj_tail in E. left. tauto.
  - rewrite app_comm_cons, app_assoc in E. apply app_inj_tail in E. destruct E as [-> ->]. right. eauto.
Qed.
Lemma cached_insert : forall L ops t c0 c r, cached L (ops ++ [CInsert t c0]) c r <-> (taken t c0 /\ c = c0 /\ until L t c0 r) \/ (cached L ops c r /\ (taken t c0 -> ct_name c0 <> ct_name c)).
Proof.
  intros L ops t c0 c r. unfold CertSpec.cached. split.
  - intros (o1 & t0 & o2 & E & T & U & A & B & D & F). apply snoc_cases in E. destruct E as [(-> & -> & [= -> ->])|(o2' & -> & ->)]; [left; auto|right].
    split; [|apply (A t); apply in_or_app; right; left; reflexivity]. exists o1, t0, o2'. split; [reflexivity|]. split; [exact T|]. split; [exact U|].
    split; [intros t' c' I'; apply (A t'); apply in_or_app; left; exact I'|]. split; [intros X; apply B; apply in_or_app; left; exact X|]. split; [intros X; apply D; apply in_or_app; left; exact X|].
    intros t' X. apply F. apply in_or_app. left. exact X.
  - intros [(T & -> & U)|[(o1 & t0 & o2 & -> & T & U & A & B & D & F) N]].
    + exists ops, t, []. split; [reflexivity|]. split; [exact T|]. split; [exact U|]. cbn [In]. split; [intros t' c' []|]. split; [tauto|]. split; [tauto|]. intros t' [].
    + exists o1, t0, (o2 ++ [CInsert t c0]). split; [rewrite <- app_assoc; reflexivity|]. split; [exact T|]. split; [exact U|].
      split; [intros t' c' I' T'; apply in_app_or in I'; destruct I' as [I'|[[= <- <-]|[]]]; [exact (A t' c' I' T')|exact (N T')]|].
      split; [intros X; apply in_app_or in X; destruct X as [X|[X|[]]]; [auto|discriminate]|]. split; [intros X; apply in_app_or in X; destruct X as [X|[X|[]]]; [auto|discriminate]|].
      intros t' X; apply in_app_or in X; destruct X as [X|[X|[]]]; [auto|discriminate].
Qed.
Lemma cached_find : forall L ops t c r, cached L (ops ++ [CFind t]) c r <-> cached L ops c r /\ t < r.
Proof.
  intros L ops t c r. unfold CertSpec.cached. split.
  - intros (o1 & t0 & o2 & E & T & U & A & B & D & F). apply snoc_cases in E. destruct E as [(_ & _ & X)|(o2' & -> & ->)]; [discriminate|].
    split; [|apply F; apply in_or_app; right; left; reflexivity]. exists o1, t0, o2'. split; [reflexivity|]. split; [exact T|]. split; [exact U|].
    split; [intros t' c' I'; apply (A t'); apply in_or_app; left; exact I'|]. split; [intros X; apply B; apply in_or_app; left; exact X|]. split; [intros X; apply D; apply in_or_app; left; exact X|].
    intros t' X. apply F. apply in_or_app. left. exact X.
  - intros [(o1 & t0 & o2 & -> & T & U & A & B & D & F) N].
    exists o1, t0, (o2 ++ [CFind t]). split; [rewrite <- app_assoc; reflexivity|]. split; [exact T|]. split; [exact U|].
    split; [intros t' c' I' T'; apply in_app_or in I'; destruct I' as [I'|[I'|[]]]; [exact (A t' c' I' T')|discriminate]|].
    split; [intros X; apply in_app_or in X; destruct X as [X|[X|[]]]; [auto|discriminate]|]. split; [intros X; apply in_app_or in X; destruct X as [X|[X|[]]]; [auto|discriminate]|].
    intros t' X; apply in_app_or in X; destruct X as [X|[[= <-]|[]]]; [auto|exact N].
Qed.
Lemma cached_delete : forall L ops n c r, cached L (ops ++ [CDelete n]) c r <-> cached L ops c r /\ ct_name c <> n.
Proof.
  intros L ops n c r. unfold CertSpec.cached. split.
  - intros (o1 & t0 & o2 & E & T & U & A & B & D & F). apply snoc_cases in E. destruct E as [(_ & _ & X)|(o2' & -> & ->)]; [discriminate|].
    split; [|intros <-; apply B; apply in_or_app; right; left; reflexivity]. exists o1, t0, o2'. split; [reflexivity|]. split; [exact T|]. split; [exact U|].
    split; [intros t' c' I'; apply (A t'); apply in_or_app; left; exact I'|]. split; [intros X; apply B; apply in_or_app; left; exact X|]. split; [intros X; apply D; apply in_or_app; left; exact X|].
    intros t' X. apply F. apply in_or_app. left. exact X.
  - intros [(o1 & t0 & o2 & -> & T & U & A & B & D & F) N].
    exists o1, t0, (o2 ++ [CDelete n]). split; [rewrite <- app_assoc; reflexivity|]. split; [exact T|]. split; [exact U|].
    split; [intros t' c' I' T'; apply in_app_or in I'; destruct I' as [I'|[I'|[]]]; [exact (A t' c' I' T')|discriminate]|].
    split; [intros X; apply in_app_or in X; destruct X as [X|[[= X]|[]]]; [auto|congruence]|]. split; [intros X; apply in_app_or in X; destruct X as [X|[X|[]]]; [auto|discriminate]|].
    intros t' X; apply in_app_or in X; destruct X as [X|[X|[]]]; [auto|discriminate].
Qed.
Lemma cached_clear : forall L ops c r, ~ cached L (ops ++ [CClear]) c r.
Proof.
  intros L ops c r (o1 & t0 & o2 & E & T & U & A & B & D & F). apply snoc_cases in E. destruct E as [(_ & _ & X)|(o2' & -> & ->)]; [discriminate|]. apply D. apply in_or_app. right. left. reflexivity.
Qed.
Lemma run_snoc : forall L ops o s, cc_run L ops = Ok s -> cc_run L (ops ++ [o]) = cc_step ct_name ct_notAfter ct_check s o.
Proof. intros L ops o s H. unfold CertSpec.cc_run in *. rewrite fold_left_app, H. reflexivity. Qed.

Lemma run_inv : forall L ops, good ops -> exists s, cc_run L ops = Ok s /\ inv s /\ cc_max s = L /\ (forall k c r, entries s k c r <-> ct_name c = k /\ cached L ops c r).
Proof.
  intros L ops G. induction ops as [|o ops IH] using rev_ind.
  - exists (cc_new L). split; [reflexivity|]. split; [apply new_inv|]. split; [reflexivity|]. intros k c r. split; [intros []|]. intros [_ (o1 & t0 & o2 & E & _)]. destruct o1; discriminate.
  - destruct IH as (s & E & H & M & Ent); [intros o' Ho; apply G; apply in_or_app; left; exact Ho|].
    assert (Go : match o with CInsert _ c => nval (ct_name c) | CDelete n => nval n | _ => True end) by (apply G; apply in_or_app; right; left; reflexivity).
    rewrite (run_snoc _ _ _ _ E). destruct o as [now c0|now|n|]; cbn [cc_step].
    + destruct (insert_inv s now c0 H Go) as (A & B & D). eexists. split; [reflexivity|]. split; [exact A|]. split; [rewrite B; exact M|]. intros k c r. rewrite D, M, cached_insert, Ent. split.
      * intros [(T & -> & -> & U)|[N [X Y]]]; [split; [reflexivity|left; auto]|]. split; [exact X|]. right. split; [exact Y|]. intros T Z. apply N. split; [exact T|congruence].
      * intros [X [(T & -> & U)|[Y N]]]; [left; auto|right]. split; [|auto]. intros [T Z]. apply (N T). congruence.
    + destruct (refresh_inv s now H) as (s' & E' & A & B & D). exists s'. split; [exact E'|]. split; [exact A|]. split; [rewrite B; exact M|]. intros k c r. rewrite D, Ent, cached_find. tauto.
    + destruct (delete_inv s n H Go) as [A D]. eexists. split; [reflexivity|]. split; [exact A|]. split; [exact M|]. intros k c r. rewrite D, Ent, cached_delete. split; intros; intuition congruence.
    + eexists. split; [reflexivity|]. split; [apply clear_inv|]. split; [exact M|]. intros k c r. split; [intros []|]. intros [_ X]. elim (cached_clear _ _ _ _ X).
Qed.
(** No call other than insert raises, and the cache holds exactly the certificates the
    history says, one per name. *)
Theorem C41_contents : forall L ops, good ops -> exists s, cc_run L ops = Ok s /\ NoDup (dkeys (cc_dict s)) /\
  (forall k c r, In (k, (c, r)) (cc_dict s) <-> ct_name c = k /\ cached L ops c r).
Proof. intros L ops G. destruct (run_inv L ops G) as (s & E & H & _ & Ent). exists s. split; [exact E|]. split; [apply H|exact Ent]. Qed.

(** find with a Name: the certificate with the least name at or after the prefix in
    canonical order, when the prefix matches it; and a certificate whenever there is one
    under the prefix. *)
Theorem C41_find_name : forall L ops now p s, good ops -> nval p -> cc_run L ops = Ok s ->
  exists s' r, cc_find_name s now p = Ok (s', r) /\ cc_run L (ops ++ [CFind now]) = Ok s' /\
  match r with
  | Some c => exists e, cached L ops c e /\ now < e /\ under_values p (ct_name c) /\
      (forall c' e', cached L ops c' e' -> now < e' -> under_name p (ct_name c') -> ct_name c' = ct_name c \/ canon_lt (ct_name c) (ct_name c'))
  | None => forall c e, cached L ops c e -> now < e -> ~ under_name p (ct_name c)
  end.
Proof.
  intros L ops now p s G Vp E. destruct (run_inv L ops G) as (s0 & E0 & H & M & Ent). assert (s0 = s) by congruence. subst s0.
  destruct (refresh_inv s now H) as (s' & E' & A & B & D). assert (R : cc_run L (ops ++ [CFind now]) = Ok s') by (rewrite (run_snoc _ _ _ _ E); exact E').
  unfold cc_find_name. rewrite E'. cbn [rbind]. pose proof (first_at (cc_keys s') p (inv_sorted _ A)) as Fa.
  assert (KeyOf : forall c e, cached L ops c e -> now < e -> In (ct_name c) (cc_keys s')).
  { intros c e Hc Le. apply (inv_keys _ A). apply in_keys. exists (c, e). apply D. split; [apply Ent; auto|exact Le]. }
  destruct (nth_error (cc_keys s') (bisect_left (cc_keys s') p)) as [k|].
  - destruct Fa as (Ik & Nk & Lk). destruct (n_isPrefixOf p k) eqn:Ep; cbn [negb].
    + pose proof Ik as Ik'. apply (inv_keys _ A) in Ik'. apply in_keys in Ik'. destruct Ik' as [[c e] Ie]. unfold dindex. rewrite (in_dget n_equals nval Heqn _ _ _ (inv_dom _ A) (inv_uniq _ A) Ie).
      cbn [rbind fst]. exists s', (Some c). split; [reflexivity|]. split; [exact R|]. pose proof Ie as Ie'. apply D in Ie'. destruct Ie' as [Ie1 Le]. apply Ent in Ie1. destruct Ie1 as [Ek Hc].
      exists e. split; [exact Hc|]. split; [exact Le|]. rewrite Ek. split; [apply isPrefixOf_iff; exact Ep|]. intros c' e' Hc' Le' U.
      apply Lk; [apply (KeyOf c' e'); assumption|apply under_not_lt; exact U].
    + exists s', None. split; [reflexivity|]. split; [exact R|]. intros c e Hc Le U. pose proof (KeyOf c e Hc Le) as Ic.
      pose proof (keys_val _ A) as Kv. rewrite Forall_forall in Kv.
      assert (Uk : under_name p k).
      { apply (prefix_convex p (ct_name c) k Vp (Kv _ Ic) (Kv _ Ik) U Nk). destruct (Lk _ Ic (under_not_lt _ _ U)) as [X|X]; [right; congruence|left; exact X]. }
      apply under_name_values in Uk. apply isPrefixOf_iff in Uk. congruence.
  - exists s', None. split; [reflexivity|]. split; [exact R|]. intros c e Hc Le U. exact (under_not_lt _ _ U (Fa _ (KeyOf c e Hc Le))).
Qed.

(** find with an Interest *)
Lemma find_loop_ok : forall (d : dict name (C * Z)) i ks, dom nval d -> uniq d -> (forall k, In k ks -> exists c r, In (k, (c, r)) d /\ ct_name c = k) ->
  exists r, find_loop ct_name i_name i_matches d i ks = Ok r /\
  match r with
  | Some c => exists a k b e, ks = a ++ k :: b /\ In (k, (c, e)) d /\ i_matches i c = true /\ under_values (i_name i) k /\
      (forall k' c' e', In k' a -> In (k', (c', e')) d -> i_matches i c' = false)
  | None => exists a b, ks = a ++ b /\ (forall k c e, In k a -> In (k, (c, e)) d -> i_matches i c = false) /\ match b with [] => True | k :: _ => ~ under_values (i_name i) k end
  end.
Proof.
  intros d i ks Hd Hu. induction ks as [|k ks IH]; intros K; cbn [find_loop].
  - exists None. split; [reflexivity|]. exists [], []. split; [reflexivity|]. split; [intros k c e []|exact Logic.I].
  - destruct (K k (or_introl eq_refl)) as (c & r & Ik & Ek). unfold dindex. pose proof (in_dget n_equals nval Heqn _ _ _ Hd Hu Ik) as Gk. rewrite Gk. cbn [rbind fst]. rewrite Ek.
    assert (Only : forall c' e', In (k, (c', e')) d -> c' = c).
    { intros c' e' I'. pose proof (in_dget n_equals nval Heqn _ _ _ Hd Hu I') as G'. rewrite Gk in G'. congruence. }
    destruct (n_isPrefixOf (i_name i) k) eqn:Ep; cbn [negb].
    + destruct (i_matches i c) eqn:Em.
      * exists (Some c). split; [reflexivity|]. exists [], k, ks, r. split; [reflexivity|]. split; [exact Ik|]. split; [exact Em|]. split; [apply isPrefixOf_iff; exact Ep|]. intros k' c' e' [].
      * destruct IH as (r0 & E & P); [intros k' I'; apply K; right; exact I'|]. exists r0. split; [exact E|]. destruct r0 as [c0|].
        -- destruct P as (a & k0 & b & e & -> & P1 & P2 & P3 & P4). exists (k :: a), k0, b, e. split; [reflexivity|]. split; [exact P1|]. split; [exact P2|]. split; [exact P3|].
           intros k' c' e' [<-|I'] J; [rewrite (Only _ _ J); exact Em|eauto].
        -- destruct P as (a & b & -> & P1 & P2). exists (k :: a), b. split; [reflexivity|]. split; [|exact P2]. intros k' c' e' [<-|I'] J; [rewrite (Only _ _ J); exact Em|eauto].
    + exists None. split; [reflexivity|]. exists [], (k :: ks). split; [reflexivity|]. split; [intros k' c' e' []|]. intros U. apply isPrefixOf_iff in U. congruence.
Qed.
Theorem C41_find_interest : forall L ops now i s, good ops -> nval (i_name i) -> cc_run L ops = Ok s ->
  exists s' r, cc_find ct_name i_name i_matches s now i = Ok (s', r) /\ cc_run L (ops ++ [CFind now]) = Ok s' /\
  match r with
  | Some c => exists e, cached L ops c e /\ now < e /\ i_matches i c = true /\ under_values (i_name i) (ct_name c) /\
      (forall c' e', cached L ops c' e' -> now < e' -> under_name (i_name i) (ct_name c') -> i_matches i c' = true -> ct_name c' = ct_name c \/ canon_lt (ct_name c) (ct_name c'))
  | None => forall c e, cached L ops c e -> now < e -> under_name (i_name i) (ct_name c) -> i_matches i c = false
  end.
Proof.
  intros L ops now i s G Vp E. destruct (run_inv L ops G) as (s0 & E0 & H & M & Ent). assert (s0 = s) by congruence. subst s0.
  destruct (refresh_inv s now H) as (s' & E' & A & B & D). assert (R : cc_run L (ops ++ [CFind now]) = Ok s') by (rewrite (run_snoc _ _ _ _ E); exact E').
  unfold cc_find. rewrite E'. cbn [rbind]. destruct (bisect_left_spec (cc_keys s') (i_name i) (inv_sorted _ A)) as [Fl Fr]. set (j := bisect_left (cc_keys s') (i_name i)) in *.
  assert (Sp : cc_keys s' = firstn j (cc_keys s') ++ skipn j (cc_keys s')) by (symmetry; apply firstn_skipn).
  assert (Sk : sorted (skipn j (cc_keys s'))) by (pose proof (inv_sorted _ A) as X; rewrite Sp in X; apply sorted_app in X; apply X).
  assert (Val : forall k, In k (skipn j (cc_keys s')) -> nval k).
  { intros k I'. pose proof (keys_val _ A) as Kv. rewrite Forall_forall in Kv. apply Kv. rewrite Sp. apply in_or_app. right. exact I'. }
  destruct (find_loop_ok (cc_dict s') i (skipn j (cc_keys s')) (inv_dom _ A) (inv_uniq _ A)) as (r & Er & P).
  { intros k I'. assert (I2 : In k (cc_keys s')) by (rewrite Sp; apply in_or_app; right; exact I'). apply (inv_keys _ A) in I2. apply in_keys in I2. destruct I2 as [[c e] I2]. exists c, e. split; [exact I2|]. exact (inv_name _ A _ _ _ I2). }
  rewrite Er. cbn [rbind]. exists s', r. split; [reflexivity|]. split; [exact R|].
  assert (Here : forall c e, cached L ops c e -> now < e -> In (ct_name c, (c, e)) (cc_dict s')) by (intros c e Hc Le; apply D; split; [apply Ent; auto|exact Le]).
  assert (KeyOf : forall c e, cached L ops c e -> now < e -> under_name (i_name i) (ct_name c) -> In (ct_name c) (skipn j (cc_keys s'))).
  { intros c e Hc Le U. assert (X : In (ct_name c) (cc_keys s')) by (apply (inv_keys _ A); apply in_keys; eexists; apply (Here c e); assumption).
    rewrite Sp in X. apply in_app_or in X. destruct X as [X|X]; [elim (under_not_lt _ _ U (Fl _ X))|exact X]. }
  destruct r as [c|].
  - destruct P as (a & k & b & e & Es & Ik & Em & U & Pre). pose proof Ik as Ik'. apply D in Ik'. destruct Ik' as [Ik1 Le]. apply Ent in Ik1. destruct Ik1 as [Ek Hc].
    exists e. split; [exact Hc|]. split; [exact Le|]. split; [exact Em|]. rewrite Ek. split; [exact U|]. intros c' e' Hc' Le' U' Em'. pose proof (KeyOf c' e' Hc' Le' U') as I'. rewrite Es in I', Sk.
    apply in_app_or in I'. destruct I' as [I'|[I'|I']]; [rewrite (Pre _ _ _ I' (Here _ _ Hc' Le')) in Em'; discriminate|left; congruence|right].
    apply sorted_app in Sk. destruct Sk as (_ & S2 & _). inversion S2 as [|? ? _ F]; subst. rewrite Forall_forall in F. auto.
  - destruct P as (a & b & Es & Pre & Nb). intros c e Hc Le U. pose proof (KeyOf c e Hc Le U) as I'. rewrite Es in I', Sk. apply in_app_or in I'. destruct I' as [I'|I']; [exact (Pre _ _ _ I' (Here _ _ Hc Le))|].
    destruct b as [|k b]; [destruct I'|]. exfalso. apply Nb. apply under_name_values.
    apply (prefix_convex (i_name i) (ct_name c) k Vp).
    + apply Val. rewrite Es. apply in_or_app. right. exact I'.
    + apply Val. rewrite Es. apply in_or_app. right. left. reflexivity.
    + exact U.
    + apply Fr. rewrite Es. apply in_or_app. right. left. reflexivity.
    + apply sorted_app in Sk. destruct Sk as (_ & S2 & _). inversion S2 as [|? ? _ F]; subst. rewrite Forall_forall in F. destruct I' as [<-|I']; [right; reflexivity|left; auto].
Qed.
(** What is returned is not expired, and was inserted less than the maximum lifetime ago. *)
Theorem C41_fresh : forall L ops c e now, cached L ops c e -> now < e ->
  exists t0 na, In (CInsert t0 c) ops /\ ct_notAfter c = Ok na /\ t0 <= na /\ now < na /\ now < t0 + L.
Proof.
  intros L ops c e now (o1 & t0 & o2 & -> & (na & E & Lt & _) & (na' & E' & ->) & _) N. rewrite E in E'. injection E' as <-. exists t0, na.
  split; [apply in_or_app; right; left; reflexivity|]. split; [exact E|]. split; [exact Lt|]. lia.
Qed.
(** deleteCertificate removes the named certificate and no other. *)
Corollary C41_delete : forall L ops n, good ops -> nval n -> exists s, cc_run L (ops ++ [CDelete n]) = Ok s /\
  (forall k c r, In (k, (c, r)) (cc_dict s) <-> ct_name c = k /\ cached L ops c r /\ k <> n).
Proof.
  intros L ops n G V. destruct (run_inv L (ops ++ [CDelete n])) as (s & E & _ & _ & Ent).
  { intros o Ho. apply in_app_or in Ho. destruct Ho as [Ho|[<-|[]]]; [exact (G o Ho)|exact V]. }
  exists s. split; [exact E|]. intros k c r. unfold entries in Ent. rewrite Ent, cached_delete. split; intros; intuition congruence.
Qed.
(** The insert of a certificate that is over by then changes nothing: an older one with the
    same name stays, and is still returned. *)
Theorem C41_expired_insert : forall s now c na, ct_notAfter c = Ok na -> na < now -> cc_insert s now c = (s, Ok tt).
Proof. intros s now c na E L. unfold CertModel.cc_insert. rewrite E. replace (na <? now) with true by lia. reflexivity. Qed.
End C41.

(** ** A concrete case: certificates are (name, end); the second /A/1 replaces the first one *)
Definition exc_name (c : name * Z) : name := fst c.
Definition exc_end (c : name * Z) : res Z := if snd c <? 0 then Err ValueError else Ok (snd c).
Definition exc_check (c : name * Z) : res unit := Ok tt.
Definition exA1 : name := [c_generic [65]; c_generic [1]].
Definition exA2 : name := [c_generic [65]; c_generic [2]].
Definition exB : name := [c_generic [66]].
Definition exc_ops : list (@cc_op (name * Z)) :=
  [CInsert 10 (exB, 5000); CInsert 20 (exA2, 400); CInsert 30 (exA1, 9000); CInsert 40 (exA1, 7000); CInsert 50 (exB, -1); CFind 100; CDelete exB].
Example C41_ex : good exc_name exc_ops /\ exists s s1 s2, cc_run exc_name exc_end exc_check 1000 exc_ops = Ok s /\
  cc_find_name s 300 [c_generic [65]] = Ok (s1, Some (exA1, 7000)) /\ cc_find_name s1 300 exA2 = Ok (s1, Some (exA2, 400)) /\
  cc_find_name s1 400 exA2 = Ok (s2, None) /\ cc_find_name s2 1039 exA1 = Ok (s2, Some (exA1, 7000)) /\ (exists s3, cc_find_name s2 1040 exA1 = Ok (s3, None)) /\
  cc_find_name s 300 exB = Ok (s1, None).
Proof.
  split.
  - intros o Ho. unfold exc_ops in Ho. cbn [In] in Ho. repeat destruct Ho as [<-|Ho]; try contradiction; cbn [fst exc_name]; try exact Logic.I; repeat (apply Forall_cons; [split; [repeat constructor; lia|right; split; [right; right; reflexivity|reflexivity]]|]); apply Forall_nil.
  - eexists. eexists. eexists. split; [vm_compute; reflexivity|]. repeat (split; [vm_compute; reflexivity|]). split; [eexists; vm_compute; reflexivity|vm_compute; reflexivity].
Qed.
Print Assumptions C41_contents.
Print Assumptions C41_find_name.
Print Assumptions C41_find_interest.
Print Assumptions C41_fresh.
Print Assumptions C41_delete.
Print Assumptions C41_expired_insert.
