(** * C98: no name is listed twice *)
From Verif Require Import Base BaseLemmas NameModel NameSpec NameProofs UriModel UriSpec BisModel BisSpec BisProofs BisStep BisSim BisProps BisExamples.

(** The primary keys *)
Definition kpk (r : keyrow) : str * str := (k_identity r, k_id r).
Definition unique (s : db) : Prop := NoDup (map i_name (ids s)) /\ NoDup (map kpk (keys s)) /\ NoDup (map c_name (certs s)).
Lemma nd_filter : forall A B (f : A -> B) p l, NoDup (map f l) -> NoDup (map f (filter p l)).
Proof.
  intros A B f p l. induction l as [|x l IH]; intros H; [exact H|]. cbn [map] in H. apply NoDup_cons_iff in H. destruct H as [N H]. cbn [filter]. destruct (p x); [|auto]. cbn [map]. constructor; [|auto].
  intros I. apply N. apply in_map_iff in I. destruct I as (y & E & I). apply filter_In in I. apply in_map_iff. exists y. tauto.
Qed.
Lemma nd_update : forall A B (f : A -> B) p g l, (forall x, f (g x) = f x) -> map f (update p g l) = map f l.
Proof. intros A B f p g l H. unfold update. rewrite map_map. apply map_ext. intros x. destruct (p x); auto. Qed.
Lemma nd_snoc : forall A B (f : A -> B) l x, NoDup (map f l) -> (forall y, In y l -> f y <> f x) -> NoDup (map f (l ++ [x])).
Proof.
  intros A B f l x H N. rewrite map_app. cbn [map]. apply NoDup_rev in H. rewrite <- (rev_involutive (map f l ++ [f x])). apply NoDup_rev. rewrite rev_app_distr. cbn [rev app]. constructor; [|exact H].
  intros I. apply in_rev in I. apply in_map_iff in I. destruct I as (y & E & I). exact (N y I E).
Qed.
Lemma none_count : forall A (p : A -> bool) l, (0 <? zlen (filter p l)) = false -> forall y, In y l -> p y = false.
Proof. intros A p l H y I. destruct (p y) eqn:E; [|reflexivity]. rewrite (proj2 (some_count A p l)) in H; [discriminate H|eauto]. Qed.
Lemma u_addId : forall i s, unique s -> unique (addIdentity i s).
Proof.
  intros i s (A & B & C). unfold addIdentity. destruct (doesIdentityExist i s) eqn:E; [split; auto|]. split; [|auto]. cbn [ids]. apply nd_snoc; [exact A|]. intros y I X. pose proof (none_count _ _ _ E y I) as F. unfold is_id in F. cbn [i_name] in X. rewrite X, zlist_eqb_refl in F. discriminate F.
Qed.
Lemma u_addKey : forall k t x s, unique s -> unique (fst (addKey k t x s)).
Proof.
  intros k t x s U. unfold addKey, doesKeyExist. destruct (split_key k) as [u|]; [|exact U]. cbn [rbind]. destruct (0 <? zlen (filter (is_key u) (keys s))) eqn:E; [exact U|]. cbv zeta. cbn [fst]. destruct (u_addId (removelast k) s U) as (A & B & C). split; [exact A|]. split; [|exact C]. cbn [keys]. apply nd_snoc; [exact B|].
  intros y I X. assert (I' : In y (keys s)) by (unfold addIdentity in I; destruct (doesIdentityExist (removelast k) s); exact I). pose proof (none_count _ _ _ E y I') as F. unfold is_key in F. unfold kpk in X. cbn [k_identity k_id] in X. injection X as X1 X2. rewrite X1, X2, !zlist_eqb_refl in F. discriminate F.
Qed.
Lemma u_call : forall c s, unique s -> unique (fst (do_call c s)).
Proof.
  intros c s U. pose proof U as (A & B & C). destruct c as [i|k t x|c|k|n|i|i|k check|k n|k b]; cbn [do_call fst].
  - apply u_addId; exact U.
  - apply u_addKey; exact U.
  - pose proof (u_addKey (x_key c) (x_type c) (x_der c) s U) as U'. unfold addCertificate. destruct (addKey (x_key c) (x_type c) (x_der c) s) as [s1 r]. cbn [fst] in U'. destruct r; [|exact U']. destruct (doesCertificateExist (x_name c) s1) eqn:E; [exact U'|]. destruct (split_key (x_key c)) as [u|]; [|exact U']. destruct U' as (A' & B' & C'). cbn [fst]. split; [exact A'|]. split; [exact B'|]. cbn [certs]. apply nd_snoc; [exact C'|].
    intros y I X. pose proof (none_count _ _ _ E y I) as F. unfold is_cert in F. cbn [c_name] in X. rewrite X, zlist_eqb_refl in F. discriminate F.
  - unfold deletePublicKeyInfo. destruct (split_key k); [|exact U]. split; [exact A|]. split; apply nd_filter; assumption.
  - unfold deleteCertificateInfo. destruct n; [exact U|]. split; [exact A|]. split; [exact B|]. apply nd_filter; exact C.
  - split; [|split]; apply nd_filter; assumption.
  - split; [|auto]. cbn [setDefaultIdentity ids]. rewrite !nd_update by reflexivity. exact A.
  - unfold setDefaultKeyNameForIdentity. destruct (split_key k); [|exact U]. destruct (match check with None => _ | Some i => _ end); [exact U|]. split; [exact A|]. split; [|exact C]. cbn [fst keys]. rewrite !nd_update by reflexivity. exact B.
  - unfold setDefaultCertificateNameForKey. destruct (split_key k); [|exact U]. split; [exact A|]. split; [exact B|]. cbn [fst certs]. rewrite !nd_update by reflexivity. exact C.
  - unfold updateKeyStatus. destruct (split_key k); [|exact U]. split; [exact A|]. split; [|exact C]. cbn [fst keys]. rewrite !nd_update by reflexivity. exact B.
Qed.
Lemma u_run : forall cs, unique (run cs).
Proof.
  assert (G : forall cs s, unique s -> unique (fold_left (fun s c => fst (do_call c s)) cs s)) by (induction cs as [|c cs IH]; intros s U; [exact U|]; apply IH, u_call, U).
  intros cs. apply G. split; [|split]; constructor.
Qed.
Lemma nd_names : forall l ns, names_of l = Ok ns -> NoDup l -> (forall u, In u l -> exists n, plain n /\ u = uri n) -> NoDup ns.
Proof.
  induction l as [|u l IH]; cbn [names_of]; intros ns H N G; [injection H as <-; constructor|]. destruct (n_set u) as [n|] eqn:E; cbn [rbind] in H; [|discriminate H]. destruct (names_of l) as [ms|] eqn:E2; cbn [rbind] in H; [|discriminate H]. injection H as <-. apply NoDup_cons_iff in N. destruct N as [N1 N2].
  constructor; [|apply IH; [reflexivity|exact N2|intros v I; apply G; right; exact I]]. intros I. apply (names_in _ _ E2) in I. destruct I as (v & I & Ev). apply N1. destruct (G u (or_introl eq_refl)) as (a & Pa & ->). destruct (G v (or_intror I)) as (b & Pb & ->). rewrite (parse a Pa) in E. rewrite (parse b Pb) in Ev. injection E as ->. injection Ev as ->. exact I.
Qed.
(** getAllIdentities, getAllKeyNamesOfIdentity and getAllCertificateNamesOfKey list no name twice *)
Theorem C98_no_duplicates : forall cs, Forall proper cs ->
  (forall d l, getAllIdentities d (run cs) = Ok l -> NoDup l) /\
  (forall k d l, key_like k -> getAllCertificateNamesOfKey k d (run cs) = Ok l -> NoDup l) /\
  (forall i d, NoDup (getAllKeyNamesOfIdentity i d (run cs))).
Proof.
  intros cs P. destruct (u_run cs) as (A & B & C). destruct (held cs P) as [(R1 & R2 & R3) W]. split; [|split].
  - intros d l H. apply (nd_names _ _ H); [apply nd_filter; exact A|]. intros u I. apply in_map_iff in I. destruct I as (r & <- & I). apply filter_In in I. destruct I as [I _]. apply R1 in I. destruct I as (n & d' & I & ->). exists n. split; [exact (s_id _ W _ _ I)|reflexivity].
  - intros k d l Pk H. unfold getAllCertificateNamesOfKey in H. rewrite (split_ok k) in H by apply Pk. cbn [rbind] in H. apply (nd_names _ _ H); [apply nd_filter; exact C|]. intros u I. apply in_map_iff in I. destruct I as (r & <- & I). apply filter_In in I. destruct I as [I _]. apply R3 in I. destruct I as (n & k' & x & d' & I & ->). exists n. split; [exact (proj1 (proj1 (s_cert _ W _ _ _ _ I)))|reflexivity].
  - intros i d. unfold getAllKeyNamesOfIdentity. clear R1 R2 R3 W. induction (keys (run cs)) as [|r l IH]; [constructor|]. cbn [map] in B. apply NoDup_cons_iff in B. destruct B as [N B]. specialize (IH B). cbn [filter]. destruct (Bool.eqb (k_default r) d && key_of_id (uri i) r) eqn:E; [|exact IH]. cbn [map]. constructor; [|exact IH].
    intros I. apply N. apply in_map_iff in I. destruct I as (y & X & I). apply app_inv_head in X. injection X as X. apply filter_In in I. destruct I as [I F]. apply andb_true_iff in E, F. destruct E as [_ E], F as [_ F]. unfold key_of_id in E, F. apply zlist_eqb_eq in E, F. apply in_map_iff. exists y. split; [|exact I]. unfold kpk. rewrite X, E, F. reflexivity.
Qed.
Example C98_no_duplicates_example : getAllKeyNamesOfIdentity n_a false (run (cs0 ++ [AddKey k2 1 [4]; AddKey [g [97]; g [51]] 1 [5]; AddKey k2 1 [4]])) = [k2; [g [97]; g [51]]] /\ Forall proper cs0.
Proof. split; [vm_compute; reflexivity|apply cs0_proper]. Qed.
Print Assumptions C98_no_duplicates.
