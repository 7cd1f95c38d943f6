(** * Property C36 (PSync producer) *)
From Verif Require Import Base BaseLemmas TlvModel TlvSpec TlvProofs TlvEncProofs TlvDecProofs NameModel NameSpec NameProofs UriModel MatchProps IbltModel IbltSpec IbltProofs IbltProps DictModel DictProofs PsyncModel PsyncSpec PsyncProofs PsyncProofs2.
From Coq Require Import Permutation Lia.
Local Open Scope res_scope.

Lemma tables_hashes mmh n U s : tables mmh n U s -> map snd (s_n2h s) = map (hash mmh) (dkeys (s_n2h s)).
Proof.
  intros [_ _ Th _ _ _]. unfold dkeys. rewrite map_map. apply map_ext_in. intros [x h] Hx. cbn [fst snd]. now apply Th.
Qed.
Lemma tables_build mmh n U s l : 0 < n -> tables mmh n U s -> NoDup l -> (forall x, In x l <-> In x (dkeys (s_n2h s))) -> IbltModel.run mmh (new n) (inserts (map (hash mmh) l)) = Ok (s_iblt s).
Proof.
  intros Hn T Hl E. destruct (new_sized n Hn) as [[Hb _] En]. rewrite En. destruct (holds_run mmh _ (inserts (map (hash mmh) l)) _ [] (holds_new mmh _ Hb)) as (t & R & H). rewrite R. f_equal. eapply holds_unique; [exact H|].
  pose proof (t_holds _ _ _ _ T) as To. rewrite (tables_hashes _ _ _ _ T) in To. eapply holds_perm; [|exact To]. cbn [app]. unfold inserts. apply Permutation_map, Permutation_map. apply NoDup_Permutation; [apply (t_uniq _ _ _ _ T)|exact Hl|]. intro x. symmetry. apply E.
Qed.

Section G.
Variables (mmh : Z -> bytes -> Z) (compress : bytes -> bytes) (decompress : bytes -> res bytes) (fuel : nat) (n : Z) (syncPrefix : name).
Variables (P : name -> Prop) (M : Z).
Hypothesis HG : group mmh P M.
Hypothesis Hn : 0 < n.
Notation inv := (inv mmh n P M).
Definition latest (s : state) : list (name * Z) := filter (fun x => 0 <? snd x) (s_prefixes s).
Lemma latest_in s p q : inv s -> (In (p, q) (latest s) <-> P p /\ getSequenceNo s p = q /\ 0 < q).
Proof.
  intros [[Pd Pu Pv] _]. unfold latest, getSequenceNo. rewrite filter_In. cbn [snd]. split.
  - intros [H1 H2]. assert (Hp : P p) by (unfold dom in Pd; rewrite Forall_forall in Pd; apply (Pd _ H1)). split; [exact Hp|]. rewrite (in_dget n_equals P (Peq mmh P M HG) _ _ _ Pd Pu H1). split; [reflexivity|lia].
  - intros (Hp & E & Hq). destruct (dget n_equals (s_prefixes s) p) as [q'|] eqn:G; [|lia]. subst q'. split; [eapply dget_in; [exact (Peq mmh P M HG)|exact Pd|exact Hp|exact G]|lia].
Qed.
Lemma latest_nodup s : inv s -> NoDup (map fst (latest s)).
Proof. intros [[Pd Pu Pv] _]. apply filter_nodup_fst. exact Pu. Qed.
Lemma latest_bound s : inv s -> Forall (fun x => P (fst x) /\ 0 < snd x <= M) (latest s).
Proof.
  intro I. apply Forall_forall. intros [p q] H. cbn [fst snd]. pose proof H as H'. apply latest_in in H; [|exact I]. destruct H as (Hp & _ & Hq). split; [exact Hp|]. split; [exact Hq|]. unfold latest in H'. apply filter_In in H'. destruct I as [[_ _ Pv] _]. apply (Pv p q), H'.
Qed.
Lemma latest_keys s x : inv s -> (In x (map entry2 (latest s)) <-> In x (dkeys (s_n2h s))).
Proof.
  intro I. pose proof (latest_bound s I) as B. rewrite Forall_forall in B. pose proof (M64 mmh P M HG) as HM. destruct I as [[Pd Pu Pv] A]. rewrite in_map_iff. split.
  - intros ([p q] & <- & H). destruct (B _ H) as [Hp Hq]. cbn [fst snd] in *. unfold latest in H. apply filter_In in H. apply (proj2 A p q Hp Hq). apply (in_dget n_equals P (Peq mmh P M HG) _ _ _ Pd Pu). apply H.
  - intro H. assert (Hu : U P M x) by (destruct A as [[Td _ _ _ _ _] _]; unfold dom in Td; rewrite Forall_forall in Td; apply in_keys in H; destruct H as (h & H); apply (Td _ H)). destruct Hu as (p & q & Hp & Hq & ->).
    apply (proj2 A p q Hp Hq) in H. exists (p, q). split; [reflexivity|]. apply filter_In. split; [eapply dget_in; [exact (Peq mmh P M HG)|exact Pd|exact Hp|exact H]|]. cbn [snd]. lia.
Qed.
Lemma entry2_nodup l : NoDup (map fst l) -> Forall (fun x => P (fst x) /\ 0 < snd x <= M) l -> NoDup (map entry2 l).
Proof.
  induction l as [|[p q] l IH]; intros Hu Hl; [constructor|]. inversion Hu as [|? ? U1 U2]; subst. inversion Hl as [|? ? [Hp Hq] Hl']; subst. cbn [map]. constructor; [|now apply IH].
  intro H. apply in_map_iff in H. destruct H as ([p' q'] & E & H). rewrite Forall_forall in Hl'. destruct (Hl' _ H) as [_ Hq']. cbn [fst snd] in *. unfold entry2 in E. cbn [fst snd] in E. apply (entry_inj' mmh P M HG) in E; [|lia|lia]. destruct E as [-> _]. apply U1. apply (in_map fst) in H. exact H.
Qed.
Lemma nodup_fst {A B} (l : list (A * B)) : NoDup (map fst l) -> NoDup l.
Proof. induction l as [|x l IH]; intro H; [constructor|]. inversion H as [|? ? H1 H2]; subst. constructor; [|now apply IH]. intro I. apply H1. now apply in_map. Qed.
Lemma inv_in_step s : inv s -> in_step mmh n P M s.
Proof.
  intro I. exists (latest s). split; [apply nodup_fst, latest_nodup, I|]. split; [intros; now apply latest_in|].
  rewrite <- (map_map entry2 (hash mmh)). eapply tables_build; [exact Hn|apply I|apply entry2_nodup; [apply latest_nodup, I|apply latest_bound, I]|]. intro x. now apply latest_keys.
Qed.

(** ** The latest sequence numbers after each event *)
Lemma seq_get s p : getSequenceNo s p = match dget n_equals (s_prefixes s) p with Some q => q | None => -1 end.
Proof. reflexivity. Qed.
Lemma satisfy_seq s p : getSequenceNo (fst (satisfyPendingInterests mmh compress fuel n syncPrefix s)) p = getSequenceNo s p.
Proof. unfold getSequenceNo. destruct (core_eq _ _ (keeps_satisfy mmh compress fuel n syncPrefix s)) as (-> & _). reflexivity. Qed.
Notation step := (step mmh compress decompress fuel n syncPrefix true).
Definition seq_after (s : state) (e : event) (p : name) (v : Z) : Prop :=
  match e with
  | EAdd p' => (p' = p -> v = Z.max 0 (getSequenceNo s p)) /\ (p' <> p -> v = getSequenceNo s p)
  | ERemove p' => (p' = p -> v = -1) /\ (p' <> p -> v = getSequenceNo s p)
  | EPublish p' q => (p' = p -> 0 <= getSequenceNo s p -> v = if 0 <=? q then Z.max (getSequenceNo s p) q else getSequenceNo s p + 1) /\ (p' <> p \/ getSequenceNo s p < 0 -> v = getSequenceNo s p)
  | EData _ c => (forall q, 0 < q <= M -> In (entry p q) c -> v = Z.max (getSequenceNo s p) q) /\ ((forall q, 0 < q <= M -> ~ In (entry p q) c) -> v = getSequenceNo s p)
  | _ => v = getSequenceNo s p
  end.
Lemma seq_step s e p : inv s -> wf P M s e -> P p -> seq_after s e p (getSequenceNo (step s e) p).
Proof.
  intros I W Hp. pose proof (M64 mmh P M HG) as HM. pose proof (Peq mmh P M HG) as PE. pose proof I as [Hd _]. destruct e as [p'|p'|p' q|x|x|f p' x|i c| |x e]; cbn [wf seq_after] in *; try contradiction; unfold PsyncModel.step, act.
  - destruct (add_ok mmh n P M HG s p' I W) as (s' & b & E & I' & S). unfold bind. rewrite E. cbn [fst ret]. unfold getSequenceNo. rewrite (S p Hp). unfold override. destruct (eqb_case n_equals P PE p' p W Hp) as [[<- X]|[N X]]; rewrite X; (split; intro Q; [|]); try congruence; try reflexivity.
    destruct (dget n_equals (s_prefixes s) p') as [q|] eqn:G; [|reflexivity]. pose proof (pfx_get mmh P M HG _ _ _ Hd W G). lia.
  - destruct (removeUser_ok mmh n P M HG s p' I W) as (s' & E & I' & S). rewrite E. cbn [fst]. unfold getSequenceNo. rewrite (S p Hp). unfold override. destruct (eqb_case n_equals P PE p' p W Hp) as [[<- X]|[N X]]; rewrite X; split; intro Q; congruence || reflexivity.
  - destruct W as (Hp' & Hq & Hm). destruct (publish_ok mmh compress fuel n syncPrefix P M HG s p' q I Hp' Hq Hm) as (s1 & I1 & S & _ & _ & _ & _ & _ & E). rewrite E.
    assert (R : forall b, getSequenceNo (fst (if b : bool then satisfyPendingInterests mmh compress fuel n syncPrefix s1 else (s1, Ok tt))) p = getSequenceNo s1 p) by (intros [|]; [apply satisfy_seq|reflexivity]). rewrite R. unfold getSequenceNo in *. rewrite (S p Hp). unfold override, next_seq.
    destruct (eqb_case n_equals P PE p' p Hp' Hp) as [[<- X]|[N X]]; rewrite X.
    + destruct (dget n_equals (s_prefixes s) p') as [old|] eqn:G; [|split; [intros _ Q; lia|intros _; reflexivity]]. pose proof (pfx_get mmh P M HG _ _ _ Hd Hp' G). split; [intros _ _; destruct (0 <=? q); lia|]. intros [Q|Q]; [congruence|lia].
    + split; [intros Q; congruence|]. reflexivity.
  - unfold getSequenceNo. destruct (core_eq _ _ (keeps_onSyncInterest mmh compress decompress fuel n syncPrefix true f p' x s)) as (-> & _). reflexivity.
  - destruct W as (l & -> & Hu & Hl). destruct (data_ok mmh compress n syncPrefix P M HG s i l I Hu Hl) as (s' & E & I' & S & _). change (map (fun x => entry (fst x) (snd x)) l) with (map entry2 l). rewrite E. cbn [fst]. unfold getSequenceNo. rewrite (S p Hp). unfold overrides.
    assert (Dl : dom P (filter (newer (s_prefixes s)) l)) by (unfold dom; eapply Forall_impl; [|apply filter_forall, Hl]; cbn; tauto). pose proof (filter_nodup_fst (newer (s_prefixes s)) l Hu) as Ul. rewrite Forall_forall in Hl. split.
    + intros q Hq H. apply in_map_iff in H. destruct H as ([p' q'] & E' & H). destruct (Hl _ H) as [Hp' Hq']. unfold entry2 in E'. cbn [fst snd] in *. apply (entry_inj' mmh P M HG) in E'; [|lia|lia]. destruct E' as [-> ->].
      destruct (newer (s_prefixes s) (p, q)) eqn:W.
      * rewrite (in_dget n_equals P PE _ p q Dl Ul) by (apply filter_In; auto). unfold newer in W. cbn [fst snd] in W. destruct (dget n_equals (s_prefixes s) p); lia.
      * rewrite (proj2 (dget_none n_equals P PE _ p Dl Hp)). { unfold newer in W. cbn [fst snd] in W. destruct (dget n_equals (s_prefixes s) p); [lia|discriminate]. }
        intro X. unfold dkeys in X. apply in_map_iff in X. destruct X as ([p'' q''] & E2 & X). cbn [fst] in E2. subst p''. apply filter_In in X. destruct X as [X1 X2].
        assert (q'' = q). { clear -Hu X1 H. induction l as [|[a b] l IH]; [destruct H|]. cbn [map fst] in Hu. inversion Hu as [|? ? U1 U2]; subst. destruct X1 as [X1|X1], H as [H|H]; [congruence| | |now apply IH]; exfalso; apply U1; [injection X1 as -> ->; apply (in_map fst) in H; exact H|injection H as -> ->; apply (in_map fst) in X1; exact X1]. }
        subst q''. congruence.
    + intro H. rewrite (proj2 (dget_none n_equals P PE _ p Dl Hp)); [reflexivity|]. intro X. unfold dkeys in X. apply in_map_iff in X. destruct X as ([p'' q''] & E2 & X). cbn [fst] in E2. subst p''. apply filter_In in X. destruct X as [X1 _]. destruct (Hl _ X1) as [_ Hq']. apply (H q'' Hq'). apply in_map_iff. exists (p, q''). split; [reflexivity|exact X1].
  - reflexivity.
  - unfold getSequenceNo. destruct (core_eq _ _ (keeps_delayed x e s)) as (-> & _). reflexivity.
Qed.
End G.

(** The latest non-zero sequence number of each prefix, and nothing else, is in the table. *)
Theorem C36_in_step : forall mmh compress decompress fuel n syncPrefix P M s, group mmh P M -> 0 < n ->
  reach mmh compress decompress fuel n syncPrefix P M s -> in_step mmh n P M s.
Proof. intros mmh compress decompress fuel n sp P M s HG Hn R. apply inv_in_step; [exact HG|exact Hn|]. eapply reach_inv; eassumption. Qed.
(** What each event does to the sequence numbers, for every prefix. *)
Theorem C36_sequence : forall mmh compress decompress fuel n syncPrefix P M s e p, group mmh P M -> 0 < n ->
  reach mmh compress decompress fuel n syncPrefix P M s -> wf P M s e -> P p ->
  let v := getSequenceNo s p in let v' := getSequenceNo (step mmh compress decompress fuel n syncPrefix true s e) p in
  match e with
  | EAdd p' => (p' = p -> v' = Z.max 0 v) /\ (p' <> p -> v' = v)
  | ERemove p' => (p' = p -> v' = -1) /\ (p' <> p -> v' = v)
  | EPublish p' q => (p' = p -> 0 <= v -> v' = if 0 <=? q then Z.max v q else v + 1) /\ (p' <> p \/ v < 0 -> v' = v)
  | EData _ c => (forall q, 0 < q <= M -> In (entry p q) c -> v' = Z.max v q) /\ ((forall q, 0 < q <= M -> ~ In (entry p q) c) -> v' = v)
  | _ => v' = v
  end.
Proof. intros mmh compress decompress fuel n sp P M s e p HG Hn R W Hp. apply (seq_step mmh compress decompress fuel n sp P M HG s e p); [eapply reach_inv; eassumption|exact W|exact Hp]. Qed.
(** A sequence number never goes down, except when its prefix is removed. *)
Theorem C36_monotone : forall mmh compress decompress fuel n syncPrefix P M s e p, group mmh P M -> 0 < n ->
  reach mmh compress decompress fuel n syncPrefix P M s -> wf P M s e -> P p -> e <> ERemove p ->
  getSequenceNo s p <= getSequenceNo (step mmh compress decompress fuel n syncPrefix true s e) p.
Proof.
  intros mmh compress decompress fuel n sp P M s e p HG Hn R W Hp Ne. pose proof (C36_sequence mmh compress decompress fuel n sp P M s e p HG Hn R W Hp) as H. cbn zeta in H.
  assert (I : inv mmh n P M s) by (eapply reach_inv; eassumption).
  destruct e as [p'|p'|p' q|x|x|f p' x|i c| |x e]; cbn [wf] in W; try contradiction; try lia.
  - destruct (eqb_case n_equals P (Peq mmh P M HG) p' p W Hp) as [[-> _]|[N _]]; destruct H as [H1 H2]; [rewrite H1 by reflexivity|rewrite H2 by exact N]; lia.
  - destruct (eqb_case n_equals P (Peq mmh P M HG) p' p W Hp) as [[-> _]|[N _]]; [congruence|]. destruct H as [H1 H2]. rewrite H2 by exact N. lia.
  - destruct W as (Hp' & Hq & _). destruct H as [H1 H2]. destruct (eqb_case n_equals P (Peq mmh P M HG) p' p Hp' Hp) as [[-> _]|[N _]]; [|rewrite H2 by (left; exact N); lia]. destruct (Z.le_gt_cases 0 (getSequenceNo s p)) as [L|L]; [rewrite H1 by (reflexivity || exact L); destruct (0 <=? q); lia|rewrite H2 by (right; lia); lia].
  - destruct W as (l & -> & Hu & Hl). destruct H as [H1 H2]. assert (Dl : dom P l) by (unfold dom; eapply Forall_impl; [|exact Hl]; cbn; tauto). pose proof (dget_none n_equals P (Peq mmh P M HG) l p Dl Hp) as N.
    destruct (dget n_equals l p) as [q|] eqn:G.
    + apply (dget_in n_equals P (Peq mmh P M HG) l p q Dl Hp) in G. rewrite Forall_forall in Hl. destruct (Hl _ G) as [_ Hq]. cbn [snd] in Hq. rewrite (H1 q Hq); [lia|]. apply in_map_iff. exists (p, q). auto.
    + rewrite H2; [lia|]. intros q Hq X. apply in_map_iff in X. destruct X as ([p' q'] & E & X). rewrite Forall_forall in Hl. destruct (Hl _ X) as [_ Hq']. cbn [fst snd] in *. apply (entry_inj' mmh P M HG) in E; [|lia|lia]. destruct E as [-> _]. apply N; [reflexivity|]. apply (in_map fst) in X. exact X.
Qed.
(** onUpdate is called once, with exactly the ranges of sequence numbers that are new, and then a sync
    interest goes out; nothing happens when nothing is new. *)
Theorem C36_update : forall mmh compress decompress fuel n syncPrefix P M s i content, group mmh P M -> 0 < n ->
  reach mmh compress decompress fuel n syncPrefix P M s -> wf P M s (EData i content) ->
  exists us, (forall p low high, In (p, low, high) us <-> P p /\ 0 < high <= M /\ In (entry p high) content /\ getSequenceNo s p < high /\ low = Z.max 0 (getSequenceNo s p) + 1) /\ NoDup us /\
  let s' := step mmh compress decompress fuel n syncPrefix true s (EData i content) in
  s_log s' = s_log s ++ match us with [] => [] | _ => [LUpdate us; LInterest (syncPrefix ++ [c_generic (encode compress (s_iblt s'))])] end.
Proof.
  intros mmh compress decompress fuel n sp P M s i content HG Hn R (l & -> & Hu & Hl). assert (I : inv mmh n P M s) by (eapply reach_inv; eassumption).
  destruct (data_ok mmh compress n sp P M HG s i l I Hu Hl) as (s' & E & I' & S & L). set (new_ := filter (newer (s_prefixes s)) l) in *. set (f := fun x : name * Z => (fst x, match dget n_equals (s_prefixes s) (fst x) with Some q => q | None => 0 end + 1, snd x)) in *.
  exists (map f new_). pose proof I as [Hd _]. pose proof Hl as Hl'. rewrite Forall_forall in Hl'. split; [|split].
  - intros p low high. unfold getSequenceNo. rewrite in_map_iff. split.
    + intros ([p' q'] & Ef & H). unfold new_ in H. apply filter_In in H. destruct H as [H W]. destruct (Hl' _ H) as [Hp Hq]. unfold f, newer in *. cbn [fst snd] in *. injection Ef as -> <- ->. split; [exact Hp|]. split; [exact Hq|]. split; [apply in_map_iff; exists (p, high); auto|].
      destruct (dget n_equals (s_prefixes s) p) as [old|] eqn:G; [pose proof (pfx_get mmh P M HG _ _ _ Hd Hp G)|]; lia.
    + intros (Hp & Hh & H & Lt & ->). apply in_map_iff in H. destruct H as ([p' q'] & Ee & H). destruct (Hl' _ H) as [_ Hq]. cbn [fst snd] in *. apply (entry_inj' mmh P M HG) in Ee; [|lia|lia]. destruct Ee as [-> ->]. exists (p, high). split.
      * unfold f. cbn [fst snd]. f_equal. f_equal. destruct (dget n_equals (s_prefixes s) p) as [old|] eqn:G; [pose proof (pfx_get mmh P M HG _ _ _ Hd Hp G)|]; lia.
      * unfold new_. apply filter_In. split; [exact H|]. unfold newer. cbn [fst snd]. destruct (dget n_equals (s_prefixes s) p); [lia|reflexivity].
  - apply (NoDup_map_inv fst). rewrite map_map. apply (NoDup_map_inv fst). rewrite map_map. cbn [f fst]. apply filter_nodup_fst. exact Hu.
  - cbn zeta. unfold step, act. change (map (fun x => entry (fst x) (snd x)) l) with (map entry2 l). rewrite E. cbn [fst]. rewrite L. unfold f. destruct new_; reflexivity.
Qed.
