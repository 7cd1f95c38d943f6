(** * Proofs for C36 *)
From Verif Require Import Base BaseLemmas TlvModel TlvSpec TlvProofs TlvEncProofs NameModel NameSpec NameProofs UriModel MatchProps IbltModel IbltSpec IbltProofs IbltProps DictModel DictProofs PsyncModel PsyncSpec.
From Coq Require Import Permutation Lia.
Local Open Scope res_scope.

Lemma valid_equals a b : Forall c_valid a -> Forall c_valid b -> (n_equals a b = true <-> a = b).
Proof. intros Ha Hb. rewrite n_equals_iff_key by assumption. split; [now apply n_valid_key_inj|congruence]. Qed.
Lemma zeqb_iff : forall a b : Z, True -> True -> (Z.eqb a b = true <-> a = b).
Proof. intros. apply Z.eqb_eq. Qed.
Lemma dom_true {K V} (d : dict K V) : dom (fun _ => True) d.
Proof. unfold dom. apply Forall_forall. auto. Qed.

Section P.
Variables (mmh : Z -> bytes -> Z) (compress : bytes -> bytes) (decompress : bytes -> res bytes) (fuel : nat) (n : Z) (syncPrefix : name).
Notation hash := (hash mmh).
Notation holds := (holds mmh).

(** ** The tables *)
Section Tables.
Variable U : name -> Prop.
Hypothesis HV : forall x, U x -> Forall c_valid x.
Hypothesis HI : forall x y, U x -> U y -> hash x = hash y -> x = y.
Lemma Ueq : forall a b, U a -> U b -> (n_equals a b = true <-> a = b).
Proof. intros. apply valid_equals; auto. Qed.
Record tables (s : state) : Prop := Tables {
  t_dom : dom U (s_n2h s);
  t_uniq : uniq (s_n2h s);
  t_hash : forall x h, In (x, h) (s_n2h s) -> h = hash x;
  t_uniq2 : uniq (s_h2n s);
  t_inv : forall h x, In (h, x) (s_h2n s) <-> In (x, h) (s_n2h s);
  t_holds : holds (per_hash n) (s_iblt s) (inserts (map snd (s_n2h s))) }.
(** nothing else changes *)
Definition rest_eq (s s' : state) : Prop :=
  s_prefixes s' = s_prefixes s /\ s_pending s' = s_pending s /\ s_removed s' = s_removed s /\ s_next s' = s_next s /\ s_outstanding s' = s_outstanding s /\ s_log s' = s_log s.
Lemma in_keys (d : dict name Z) x : In x (dkeys d) <-> exists h, In (x, h) d.
Proof. unfold dkeys. rewrite in_map_iff. split; [intros ([a h] & <- & H); eauto|intros (h & H); exists (x, h); auto]. Qed.
Lemma insert_ok s x : tables s -> U x -> ~ In x (dkeys (s_n2h s)) ->
  exists s', insertIntoIblt mmh x s = (s', Ok tt) /\ tables s' /\ rest_eq s s' /\ dkeys (s_n2h s') = dkeys (s_n2h s) ++ [x].
Proof.
  intros T Hx Nx. destruct T as [Td Tu Th Tu2 Ti To].
  assert (Nh : ~ In (hash x) (dkeys (s_h2n s))).
  { unfold dkeys. rewrite in_map_iff. intros ([h y] & E & H). cbn [fst] in E. subst h. apply Ti in H. pose proof (Th _ _ H) as E. assert (Uy : U y) by (unfold dom in Td; rewrite Forall_forall in Td; apply (Td _ H)). apply (HI x y Hx Uy) in E. subst y. apply Nx. apply in_keys. eauto. }
  unfold insertIntoIblt, bind, get, set_n2h, set_h2n, set_iblt, put, lift. cbn [s_n2h s_h2n s_iblt].
  rewrite (dset_new n_equals U Ueq _ _ _ Td Hx Nx), (dset_new Z.eqb (fun _ => True) zeqb_iff _ _ _ (dom_true _) I Nh).
  destruct (holds_update mmh _ _ _ 1 (hash x) To) as (t & Et & Ht). unfold insert. rewrite Et. eexists. split; [reflexivity|]. split; [|split].
  - split; cbn [s_n2h s_h2n s_iblt].
    + unfold dom in *. apply Forall_app. split; [exact Td|repeat constructor; exact Hx].
    + unfold uniq, dkeys. rewrite map_app. now apply nodup_snoc.
    + intros y h H. apply in_app_iff in H. destruct H as [H|[H|[]]]; [eauto|congruence].
    + unfold uniq, dkeys. rewrite map_app. now apply nodup_snoc.
    + intros h y. rewrite !in_app_iff, Ti. cbn [In]. split; intros [H|[H|[]]]; auto; right; left; congruence.
    + rewrite map_app. unfold inserts in *. rewrite map_app. exact Ht.
  - repeat split.
  - cbn [s_n2h]. unfold dkeys. rewrite map_app. reflexivity.
Qed.
Lemma remove_ok s x : tables s -> U x -> exists s', removeName mmh x s = (s', Ok tt) /\ tables s' /\ rest_eq s s' /\
  (forall y, In y (dkeys (s_n2h s')) <-> In y (dkeys (s_n2h s)) /\ y <> x).
Proof.
  intros T Hx. pose proof T as [Td Tu Th Tu2 Ti To]. unfold removeName, bind, get. destruct (dget n_equals (s_n2h s) x) as [h|] eqn:G.
  - assert (Ix : In x (dkeys (s_n2h s))) by (eapply dget_some_key; [exact Ueq|exact Td|exact Hx|exact G]).
    destruct (dremove_split n_equals U Ueq _ x Td Hx Tu Ix) as (d1 & h' & d2 & Ed & G' & Er & Nx). rewrite G in G'. injection G' as <-.
    unfold lift, ddel. rewrite (proj2 (din_iff n_equals U Ueq _ _ Td Hx) Ix), Er. unfold set_n2h, put. cbn [s_h2n s_iblt].
    assert (Ih : In (h, x) (s_h2n s)) by (apply Ti; rewrite Ed; apply in_elt). assert (Ihk : In h (dkeys (s_h2n s))) by (apply (in_map fst) in Ih; exact Ih).
    rewrite (proj2 (din_iff Z.eqb (fun _ => True) zeqb_iff _ h (dom_true _) I) Ihk). unfold set_h2n, set_iblt, put, erase.
    destruct (holds_update mmh _ _ _ (-1) h To) as (t & Et & Ht). rewrite Et. eexists. split; [reflexivity|]. split; [|split; [repeat split|]].
    + split; cbn [s_n2h s_h2n s_iblt].
      * rewrite <- Er. now apply dremove_dom.
      * rewrite <- Er. now apply dremove_uniq.
      * intros y k H. apply Th. rewrite Ed. apply in_app_iff in H. apply in_app_iff. cbn. tauto.
      * now apply dremove_uniq.
      * intros k y. destruct (dremove_split Z.eqb (fun _ => True) zeqb_iff _ h (dom_true _) I Tu2 Ihk) as (e1 & x' & e2 & Ee & Ge & Ere & Ne). rewrite Ere.
        assert (x' = x). { apply (dget_iff Z.eqb (fun _ => True) zeqb_iff) in Ge; [|apply dom_true|exact Tu2|exact I]. apply Ti in Ge. pose proof (Th _ _ Ge). assert (In (x, h) (s_n2h s)) by (now apply Ti). pose proof (Th _ _ H0). apply HI; [unfold dom in Td; rewrite Forall_forall in Td; apply (Td _ Ge)|exact Hx|congruence]. } subst x'.
        assert (Q : forall k y, In (k, y) (e1 ++ e2) <-> In (k, y) (s_h2n s) /\ k <> h).
        { intros k0 y0. rewrite Ee. rewrite !in_app_iff. cbn [In]. split.
          - intro H. split; [tauto|]. intros ->. apply Ne. unfold dkeys. rewrite map_app, in_app_iff. destruct H as [H|H]; apply (in_map fst) in H; auto.
          - intros [[H|[H|H]] N']; [auto|congruence|auto]. }
        rewrite Q, Ti, Ed. rewrite !in_app_iff. cbn [In]. split.
        -- intros [[H|[H|H]] N']; [auto|congruence|auto].
        -- intro H. split; [tauto|]. intros ->. assert (Hin : In (y, h) (s_n2h s)) by (rewrite Ed, in_app_iff; cbn; tauto). pose proof (Th _ _ Hin) as E1. assert (E2 : h = hash x) by (apply Th; rewrite Ed; apply in_elt).
           assert (y = x) by (apply HI; [unfold dom in Td; rewrite Forall_forall in Td; apply (Td _ Hin)|exact Hx|congruence]). subst y. apply Nx. unfold dkeys. rewrite map_app, in_app_iff. destruct H as [H|H]; apply (in_map fst) in H; auto.
      * apply (holds_cancel mmh _ _ _ 1 h). eapply holds_perm; [|exact Ht]. rewrite Ed. unfold inserts. rewrite !map_app. cbn [map snd]. rewrite <- !app_assoc. apply Permutation_app_head. cbn [app].
        change [(1, h); (- (1), h)] with ([(1, h)] ++ [(-1, h)]). rewrite app_assoc, app_comm_cons. apply Permutation_app_tail. apply Permutation_cons_append.
    + intro y. cbn [s_n2h]. rewrite Ed. unfold dkeys in *. rewrite !map_app in *. cbn [map fst]. rewrite !in_app_iff in *. cbn [In]. split.
      * intro H. split; [tauto|]. intros ->. apply Nx. exact H.
      * intros [[H|[H|H]] N']; [auto|congruence|auto].
  - exists s. split; [reflexivity|]. split; [exact T|]. split; [repeat split|]. intro y. split; [|tauto]. intro H. split; [exact H|]. intros ->. apply (dget_none n_equals U Ueq _ _ Td Hx) in G. contradiction.
Qed.

Lemma same_tables s s' : s_n2h s' = s_n2h s -> s_h2n s' = s_h2n s -> s_iblt s' = s_iblt s -> tables s -> tables s'.
Proof. intros E1 E2 E3 [A B C D E F]. split; rewrite ?E1, ?E2, ?E3; assumption. Qed.
End Tables.

(** ** What does not change the tables and the prefixes *)
Definition core (s : state) := (s_prefixes s, s_n2h s, s_h2n s, s_iblt s).
Definition keeps {A} (m : M A) : Prop := forall s, core (fst (m s)) = core s.
Lemma keeps_ret {A} (a : A) : keeps (ret a).
Proof. intro s. reflexivity. Qed.
Lemma keeps_lift {A} (r : res A) : keeps (lift r).
Proof. intro s. reflexivity. Qed.
Lemma keeps_get : keeps get.
Proof. intro s. reflexivity. Qed.
Lemma keeps_bind {A B} (m : M A) (k : A -> M B) : keeps m -> (forall a, keeps (k a)) -> keeps (bind m k).
Proof. intros Hm Hk s. unfold bind. specialize (Hm s). destruct (m s) as [s' [a|x]]; cbn [fst] in *; [rewrite Hk; exact Hm|exact Hm]. Qed.
Lemma keeps_each {A} (l : list A) f : (forall a, keeps (f a)) -> keeps (each l f).
Proof. intro H. induction l as [|a l IH]; [apply keeps_ret|]. cbn [each]. apply keeps_bind; [apply H|]. intros _. exact IH. Qed.
Ltac kp := repeat (first [apply keeps_ret | apply keeps_lift | apply keeps_get | (intro; intros; reflexivity) | apply keeps_bind; [|intro] | match goal with |- keeps (if ?b then _ else _) => destruct b | |- keeps (match ?x with _ => _ end) => destruct x end]).
Lemma keeps_sendSyncInterest : keeps (sendSyncInterest compress syncPrefix).
Proof. unfold sendSyncInterest. kp. Qed.
Lemma keeps_sendSyncData x c : keeps (sendSyncData compress syncPrefix x c).
Proof. unfold sendSyncData. kp. Qed.
Lemma keeps_pendingNames l : keeps (pendingNames l).
Proof. induction l as [|h l IH]; cbn [pendingNames]; kp. exact IH. Qed.
Lemma keeps_isNotFuture x l : keeps (isNotFutureHash mmh x l).
Proof. unfold isNotFutureHash. kp. Qed.
Lemma keeps_positiveNames u neg l : keeps (positiveNames mmh u l neg).
Proof. induction l as [|h l IH]; cbn [positiveNames]; [apply keeps_ret|]. apply keeps_bind; [apply keeps_get|]. intro s. apply keeps_bind; [apply keeps_lift|]. intro a. apply keeps_bind; [destruct (din n_equals (s_n2h s) a); [destruct u; [apply keeps_isNotFuture|]|]; apply keeps_ret|]. intro b. apply keeps_bind; [exact IH|]. intro c. apply keeps_ret. Qed.
Lemma keeps_satisfy1 x : keeps (satisfy1 mmh compress fuel n syncPrefix x).
Proof.
  unfold satisfy1. apply keeps_bind; [apply keeps_get|]. intro s. apply keeps_bind; [apply keeps_lift|]. intro e. apply keeps_bind; [apply keeps_lift|]. intro d. apply keeps_bind; [apply keeps_lift|]. intros [[c p] q].
  destruct (_ && _); [kp|]. apply keeps_bind; [apply keeps_pendingNames|]. intro l. destruct (0 <? zlen l); [|apply keeps_ret]. apply keeps_bind; [apply keeps_sendSyncData|]. intro. kp.
Qed.
Lemma keeps_satisfy : keeps (satisfyPendingInterests mmh compress fuel n syncPrefix).
Proof. unfold satisfyPendingInterests. apply keeps_bind; [apply keeps_get|]. intro s. apply keeps_each. intro. apply keeps_satisfy1. Qed.
Lemma keeps_onSyncInterest u f p x : keeps (onSyncInterest mmh compress decompress fuel n syncPrefix u f p x).
Proof.
  unfold onSyncInterest. destruct f; [apply keeps_ret|]. apply keeps_bind; [apply keeps_lift|]. intro sub. apply keeps_bind; [kp|]. intros [m|]; [|apply keeps_ret]. apply keeps_bind; [apply keeps_lift|]. intro c. destruct (initialize _ _ _) as [t|]; [|apply keeps_ret].
  apply keeps_bind; [apply keeps_get|]. intro s. apply keeps_bind; [apply keeps_lift|]. intro d. apply keeps_bind; [apply keeps_lift|]. intros [[c' p'] q']. destruct (_ && _); [kp|].
  apply keeps_bind; [apply keeps_positiveNames|]. intro l. destruct (0 <? zlen l); [apply keeps_sendSyncData|kp].
Qed.
Lemma keeps_delete x : keeps (deletePendingInterests x).
Proof. unfold deletePendingInterests. kp. Qed.
Lemma keeps_delayed x e : keeps (delayedRemove x e).
Proof. unfold delayedRemove. kp. Qed.
Lemma core_eq s s' : core s' = core s -> s_prefixes s' = s_prefixes s /\ s_n2h s' = s_n2h s /\ s_h2n s' = s_h2n s /\ s_iblt s' = s_iblt s.
Proof. unfold core. intro H. injection H as -> -> -> ->. auto. Qed.
End P.
