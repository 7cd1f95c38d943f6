(** * Facts about dictionaries whose keys are in a set where [eqb] is equality *)
From Verif Require Import Base DictModel.
From Coq Require Import Permutation.
Section P.
Context {K V : Type}.
Variable eqb : K -> K -> bool.
Variable D : K -> Prop.
Hypothesis Heq : forall a b, D a -> D b -> (eqb a b = true <-> a = b).
Implicit Types d : dict K V.
Definition dom (d : dict K V) : Prop := Forall (fun x => D (fst x)) d.
Definition uniq (d : dict K V) : Prop := NoDup (dkeys d).

Lemma eqb_refl_ k : D k -> eqb k k = true.
Proof. intro H. apply Heq; auto. Qed.
Lemma eqb_neq k k' : D k -> D k' -> k <> k' -> eqb k k' = false.
Proof. intros H H' N. destruct (eqb k k') eqn:E; [|reflexivity]. apply Heq in E; [contradiction|assumption|assumption]. Qed.
Lemma eqb_case k k' : D k -> D k' -> (k = k' /\ eqb k k' = true) \/ (k <> k' /\ eqb k k' = false).
Proof. intros H H'. destruct (eqb k k') eqn:E; [left; split; [now apply Heq|reflexivity]|right; split; [intros ->; rewrite eqb_refl_ in E by assumption; discriminate|reflexivity]]. Qed.
Lemma dget_in d k v : dom d -> D k -> dget eqb d k = Some v -> In (k, v) d.
Proof.
  induction d as [|[k' v'] d IH]; intros Hd Hk H; [discriminate|]. inversion Hd as [|? ? H1 H2]; subst. cbn [dget fst] in *. destruct (eqb_case k' k H1 Hk) as [[-> E]|[N E]]; rewrite E in H.
  - injection H as ->. now left.
  - right. now apply IH.
Qed.
Lemma in_dget d k v : dom d -> uniq d -> In (k, v) d -> dget eqb d k = Some v.
Proof.
  induction d as [|[k' v'] d IH]; intros Hd Hu H; [destruct H|]. inversion Hd as [|? ? H1 H2]; subst. inversion Hu as [|? ? U1 U2]; subst. cbn [dget fst] in *. destruct H as [H|H].
  - injection H as -> ->. rewrite eqb_refl_ by assumption. reflexivity.
  - assert (Hk : D k) by (rewrite Forall_forall in H2; apply (H2 (k, v) H)). rewrite eqb_neq; [now apply IH|assumption|assumption|]. intros ->. apply U1. apply (in_map fst) in H. exact H.
Qed.
Lemma dget_iff d k v : dom d -> uniq d -> D k -> (dget eqb d k = Some v <-> In (k, v) d).
Proof. intros. split; [now apply dget_in|now apply in_dget]. Qed.
Lemma dget_none d k : dom d -> D k -> (dget eqb d k = None <-> ~ In k (dkeys d)).
Proof.
  intros Hd Hk. split.
  - intros H I. induction d as [|[k' v'] d IH]; [destruct I|]. inversion Hd as [|? ? H1 H2]; subst. cbn [dget fst dkeys map] in *. destruct (eqb_case k' k H1 Hk) as [[-> E]|[N E]]; rewrite E in H; [discriminate|]. destruct I as [I|I]; [congruence|now apply IH].
  - intro H. destruct (dget eqb d k) as [v|] eqn:E; [|reflexivity]. exfalso. apply H. apply (dget_in d k v Hd Hk) in E. apply (in_map fst) in E. exact E.
Qed.
Lemma din_iff d k : dom d -> D k -> (din eqb d k = true <-> In k (dkeys d)).
Proof.
  intros Hd Hk. unfold din. pose proof (dget_none d k Hd Hk) as N. destruct (dget eqb d k) as [v|] eqn:E.
  - split; [intros _|reflexivity]. apply (dget_in d k v Hd Hk) in E. apply (in_map fst) in E. exact E.
  - split; [discriminate|]. intro H. exfalso. now apply N.
Qed.
Lemma dset_new d k v : dom d -> D k -> ~ In k (dkeys d) -> dset eqb d k v = d ++ [(k, v)].
Proof.
  induction d as [|[k' v'] d IH]; intros Hd Hk N; [reflexivity|]. inversion Hd as [|? ? H1 H2]; subst. cbn [dset fst dkeys map app] in *. rewrite eqb_neq; [|assumption|assumption|intros ->; apply N; now left]. f_equal. apply IH; [assumption|assumption|]. intro I. apply N. now right.
Qed.
Lemma dset_get d k v k' : dom d -> D k -> D k' -> dget eqb (dset eqb d k v) k' = if eqb k k' then Some v else dget eqb d k'.
Proof.
  induction d as [|[k0 v0] d IH]; intros Hd Hk Hk'; [reflexivity|]. inversion Hd as [|? ? H1 H2]; subst. cbn [dset dget fst] in *. destruct (eqb_case k0 k H1 Hk) as [[-> E]|[N E]]; rewrite E; cbn [dget].
  - destruct (eqb k k'); reflexivity.
  - rewrite (IH H2 Hk Hk'). destruct (eqb_case k0 k' H1 Hk') as [[-> E']|[N' E']]; rewrite E'; [|reflexivity]. rewrite eqb_neq; [reflexivity|assumption|assumption|congruence].
Qed.
Lemma dset_keys d k v : dom d -> D k -> dkeys (dset eqb d k v) = if din eqb d k then dkeys d else dkeys d ++ [k].
Proof.
  induction d as [|[k0 v0] d IH]; intros Hd Hk; [reflexivity|]. inversion Hd as [|? ? H1 H2]; subst. unfold din in *. cbn [dset dget fst] in *. destruct (eqb_case k0 k H1 Hk) as [[-> E]|[N E]]; rewrite E; [reflexivity|].
  cbn [dkeys map fst app]. unfold dkeys in IH. rewrite (IH H2 Hk). destruct (dget eqb d k); reflexivity.
Qed.
Lemma dset_dom d k v : dom d -> D k -> dom (dset eqb d k v).
Proof.
  induction d as [|[k0 v0] d IH]; intros Hd Hk; [repeat constructor; assumption|]. inversion Hd as [|? ? H1 H2]; subst. cbn [dset]. destruct (eqb k0 k); constructor; auto. now apply IH.
Qed.
Lemma nodup_snoc (l : list K) k : NoDup l -> ~ In k l -> NoDup (l ++ [k]).
Proof. intros H N. eapply Permutation_NoDup; [apply Permutation_cons_append|]. now constructor. Qed.
Lemma dset_uniq d k v : dom d -> D k -> uniq d -> uniq (dset eqb d k v).
Proof.
  intros Hd Hk Hu. unfold uniq. rewrite (dset_keys d k v Hd Hk). pose proof (din_iff d k Hd Hk) as I. destruct (din eqb d k); [exact Hu|]. apply nodup_snoc; [exact Hu|]. intro X. apply I in X. discriminate.
Qed.
Lemma dremove_split d k : dom d -> D k -> uniq d -> In k (dkeys d) -> exists d1 v d2, d = d1 ++ (k, v) :: d2 /\ dget eqb d k = Some v /\ dremove eqb d k = d1 ++ d2 /\ ~ In k (dkeys (d1 ++ d2)).
Proof.
  induction d as [|[k0 v0] d IH]; intros Hd Hk Hu I; [destruct I|]. inversion Hd as [|? ? H1 H2]; subst. inversion Hu as [|? ? U1 U2]; subst. cbn [dremove dget fst dkeys map] in *. destruct (eqb_case k0 k H1 Hk) as [[-> E]|[N E]]; rewrite E.
  - exists [], v0, d. auto.
  - destruct I as [I|I]; [congruence|]. destruct (IH H2 Hk U2 I) as (d1 & v & d2 & -> & G & R & X). exists ((k0, v0) :: d1), v, d2. rewrite R. split; [reflexivity|]. split; [exact G|]. split; [reflexivity|]. cbn [app dkeys map fst]. intros [Y|Y]; [congruence|contradiction].
Qed.
Lemma dremove_get d k k' : dom d -> D k -> D k' -> uniq d -> dget eqb (dremove eqb d k) k' = if eqb k k' then None else dget eqb d k'.
Proof.
  induction d as [|[k0 v0] d IH]; intros Hd Hk Hk' Hu; [cbn; destruct (eqb k k'); reflexivity|]. inversion Hd as [|? ? H1 H2]; subst. inversion Hu as [|? ? U1 U2]; subst. cbn [dremove dget fst dkeys map] in *. destruct (eqb_case k0 k H1 Hk) as [[-> E]|[N E]]; rewrite E; cbn [dget].
  - destruct (eqb_case k k' Hk Hk') as [[<- E']|[N' E']]; rewrite E'; [|reflexivity]. now apply dget_none.
  - rewrite (IH H2 Hk Hk' U2). destruct (eqb_case k0 k' H1 Hk') as [[-> E']|[N' E']]; rewrite E'; [|reflexivity]. rewrite eqb_neq; [reflexivity|assumption|assumption|congruence].
Qed.
Lemma dremove_in d k x : In x (dremove eqb d k) -> In x d.
Proof. induction d as [|[k0 v0] d IH]; [auto|]. cbn [dremove]. destruct (eqb k0 k); cbn [In]; [auto|]. intros [<-|H]; auto. Qed.
Lemma dremove_dom d k : dom d -> dom (dremove eqb d k).
Proof. unfold dom. rewrite !Forall_forall. intros H x Hx. apply H. eapply dremove_in; exact Hx. Qed.
Lemma dremove_uniq d k : uniq d -> uniq (dremove eqb d k).
Proof.
  induction d as [|[k0 v0] d IH]; intro Hu; [exact Hu|]. inversion Hu as [|? ? U1 U2]; subst. cbn [dremove]. destruct (eqb k0 k); [exact U2|]. unfold uniq, dkeys in *. cbn [map fst]. constructor; [|now apply IH].
  intro I. apply U1. apply in_map_iff in I. destruct I as ([k' v'] & E & I). apply in_map_iff. exists (k', v'). split; [exact E|eapply dremove_in; exact I].
Qed.
Lemma dget_some_key d k v : dom d -> D k -> dget eqb d k = Some v -> In k (dkeys d).
Proof. intros Hd Hk H. apply (dget_in d k v Hd Hk) in H. apply (in_map fst) in H. exact H. Qed.
End P.
