(** * Lemmas about ChronoModel: the replies *)
From Verif Require Import Base BaseLemmas BlobModel DigestModel DigestSpec DigestProps ChronoModel ChronoSpec ChronoProofs ChronoProofs2.
Local Open Scope res_scope.

(** ** The merged list *)
Definition m_triple (e : str * (Z * Z)) : str * Z * Z := (fst e, snd (snd e), fst (snd e)).
Lemma merge_in m p q s e : In e (merge m p q s) -> e = (p, (q, s)) \/ In e m.
Proof.
  induction m as [|[p' v] m IH]; cbn [merge]; [intros [<-|[]]; auto|]. destruct (zlist_eqb p' p) eqn:E; cbn [In].
  - apply zlist_eqb_eq in E. subst p'. intros [<-|H]; auto.
  - intros [<-|H]; [auto|]. destruct (IH H); auto.
Qed.
Lemma merge_fst m p q s : forall x, In x (map fst (merge m p q s)) <-> x = p \/ In x (map fst m).
Proof.
  intro x. induction m as [|[p' v] m IH]; cbn [merge map In fst]; [intuition congruence|]. destruct (zlist_eqb p' p) eqn:E; cbn [map In fst].
  - apply zlist_eqb_eq in E. subst p'. intuition congruence.
  - rewrite IH. intuition congruence.
Qed.
Lemma merge_nodup m p q s : NoDup (map fst m) -> NoDup (map fst (merge m p q s)).
Proof.
  induction m as [|[p' v] m IH]; cbn [merge map fst]; intro N; [constructor; [intros []|constructor]|]. inversion N as [|? ? N1 N2]; subst. destruct (zlist_eqb p' p) eqn:E; cbn [map fst].
  - constructor; assumption.
  - constructor; [|auto]. rewrite merge_fst. intros [->|H]; [|contradiction]. rewrite (proj2 (zlist_eqb_eq p p) eq_refl) in E. discriminate E.
Qed.
Lemma merge_new m p q s : NoDup (map fst m) -> forall e, In e (merge m p q s) -> fst e = p -> e = (p, (q, s)).
Proof.
  induction m as [|[p' v] m IH]; cbn [merge]; intros N e H Ep; [destruct H as [<-|[]]; reflexivity|]. cbn [map fst] in N. inversion N as [|? ? N1 N2]; subst.
  destruct (zlist_eqb p' (fst e)) eqn:E.
  - apply zlist_eqb_eq in E. subst p'. destruct H as [<-|H]; [reflexivity|]. exfalso. apply N1, in_map, H.
  - destruct H as [<-|H]; [cbn [fst] in E; rewrite (proj2 (zlist_eqb_eq p' p') eq_refl) in E; discriminate E|]. apply IH; auto.
Qed.
Lemma merge_old m p q s e : In e m -> fst e <> p -> In e (merge m p q s).
Proof.
  induction m as [|[p' v] m IH]; [intros []|]. cbn [merge]. intros H N. destruct (zlist_eqb p' p) eqn:E.
  - apply zlist_eqb_eq in E. subst p'. destruct H as [<-|H]; [cbn in N; congruence|now right].
  - destruct H as [<-|H]; [now left|right; auto].
Qed.
Definition in_tree (t : tree) (u : str * Z * Z) : bool := negb (find t (fst (fst u)) (snd (fst u)) =? -1).
Lemma merge_all_snoc t l x m : merge_all t (l ++ [x]) m = let m' := merge_all t l m in if is_update x then if in_tree t (triple x) then merge m' (ss_name x) (ss_seq x) (ss_session x) else m' else m'.
Proof. unfold merge_all. rewrite fold_left_app. reflexivity. Qed.
Lemma claims_snoc l x : claims (l ++ [x]) = claims l ++ (if is_update x then [triple x] else []).
Proof. unfold claims, is_update. rewrite filter_app, map_app. cbn [filter]. change UPDATE with 0. destruct (ss_type x =? 0); reflexivity. Qed.
Lemma merge_all_spec t l : let m := merge_all t l [] in
  NoDup (map fst m) /\ (forall e, In e m -> In (m_triple e) (claims l) /\ in_tree t (m_triple e) = true) /\
  (forall p s q, In (p, s, q) (claims l) -> in_tree t (p, s, q) = true -> In p (map fst m)).
Proof.
  induction l as [|x l IH] using rev_ind; cbv zeta in *; [split; [constructor|split; [intros e []|intros p s q []]]|]. destruct IH as (A & B & C). rewrite merge_all_snoc, claims_snoc. cbv zeta.
  set (m := merge_all t l []) in *. destruct (is_update x).
  - destruct (in_tree t (triple x)) eqn:T.
    + split; [now apply merge_nodup|]. split.
      * intros e H. apply merge_in in H. destruct H as [->|H]; [split; [apply in_or_app; right; now left|exact T]|]. destruct (B e H) as [B1 B2]. split; [apply in_or_app; now left|exact B2].
      * intros p s q H Ht. apply merge_fst. apply in_app_or in H. destruct H as [H|[H|[]]]; [right; eapply C; eassumption|left; unfold triple in H; congruence].
    + split; [exact A|]. split; [intros e H; destruct (B e H) as [B1 B2]; split; [apply in_or_app; now left|exact B2]|]. intros p s q H Ht. apply in_app_or in H. destruct H as [H|[H|[]]]; [eapply C; eassumption|]. exfalso. congruence.
  - rewrite app_nil_r. auto.
Qed.
Lemma tidy_prefix us vs : tidy (us ++ vs) -> tidy us.
Proof. intros T a b c p s q s' q' E. apply (T a b (c ++ vs) p s q s' q'). rewrite E, <- !app_assoc. cbn [app]. rewrite <- !app_assoc. reflexivity. Qed.
Lemma tidy_last us p s q s' q' : tidy (us ++ [(p, s', q')]) -> In (p, s, q) us -> s = s' /\ q <= q'.
Proof. intros T H. apply in_split in H. destruct H as (a & b & ->). apply (T a b [] p s q s' q'). rewrite <- app_assoc. reflexivity. Qed.
Lemma merge_all_tidy t l : tidy (claims l) -> forall e, In e (merge_all t l []) -> (forall s q, In (fst e, s, q) (claims l) -> in_tree t (fst e, s, q) = true) ->
  forall s q, In (fst e, s, q) (claims l) -> s = snd (snd e) /\ q <= fst (snd e).
Proof.
  induction l as [|x l IH] using rev_ind; [intros _ e []|]. rewrite merge_all_snoc, claims_snoc. cbv zeta. destruct (is_update x); [|rewrite app_nil_r; exact IH].
  intros T e H It s q J. destruct (merge_all_spec t l) as (A & B & C). cbv zeta in *. set (m := merge_all t l []) in *. destruct (in_tree t (triple x)) eqn:Ix.
  - destruct (list_eq_dec Z.eq_dec (fst e) (ss_name x)) as [E|E].
    + apply (merge_new m _ _ _ A) in H; [|exact E]. subst e. cbn [fst snd]. apply in_app_or in J. destruct J as [J|[J|[]]]; [|unfold triple in J; cbn [fst] in J; injection J as -> ->; split; [reflexivity|lia]].
      cbn [fst] in J. apply (tidy_last (claims l) (ss_name x)); [exact T|exact J].
    + apply merge_in in H. destruct H as [->|H]; [cbn [fst] in E; congruence|]. apply in_app_or in J. destruct J as [J|[J|[]]]; [|exfalso; apply E; unfold triple in J; congruence]. apply IH; [eapply tidy_prefix, T|exact H| |exact J].
      intros s0 q0 J0. apply It, in_or_app. now left.
  - apply in_app_or in J. destruct J as [J|[J|[]]]; [|exfalso; rewrite J in Ix; rewrite (It s q) in Ix; [discriminate Ix|apply in_or_app; right; rewrite J; now left]].
    apply IH; [eapply tidy_prefix, T|exact H| |exact J]. intros s0 q0 J0. apply It, in_or_app. now left.
Qed.
Definition mk (e : str * (Z * Z)) : sstate := SState (fst e) 0 (snd (snd e)) (fst (snd e)) [].
Lemma to_states_ok m : (forall e, In e m -> 0 <= fst (snd e) < 2 ^ 64 /\ 0 <= snd (snd e) < 2 ^ 64) -> to_states m = Ok (map mk m).
Proof.
  induction m as [|[p [q s]] m IH]; intro H; [reflexivity|]. cbn [to_states map]. destruct (H _ (or_introl eq_refl)) as [A B]. cbn [fst snd] in A, B. unfold mk_state. replace (u64 q && u64 s) with true by (unfold u64; lia). cbn [rbind]. rewrite IH by (intros; apply H; now right). reflexivity.
Qed.
Lemma claims_mk m : claims (map mk m) = map m_triple m.
Proof. induction m as [|e m IH]; [reflexivity|]. cbn [map]. rewrite claims_cons. change (is_update (mk e)) with true. cbv iota. rewrite IH. reflexivity. Qed.
Lemma top_le us p s m : -1 <= m -> (forall q, In (p, s, q) us -> q <= m) -> top us p s <= m.
Proof. intros L H. destruct (top_wit us p s) as [->|W]; [exact L|auto]. Qed.

Section Node.
Variable sha : bytes -> bytes.
Hypothesis Hs : sha_fn sha.
Variable me : str.
Variable session : Z.
Hypothesis He : encodable me.
Notation run := (run sha).
Notation upd := (upd sha me).
Notation after := (after sha me session).
Notation step := (step sha me session).
Notation G := (G sha).
Notation logs := (logs sha).

Lemma state_in cs p s q : Forall (Forall state_ok) cs -> In (p, s, q) (claimed cs) -> encodable p /\ 0 <= q < 2 ^ 64 /\ 0 <= s < 2 ^ 64.
Proof.
  intros F H. unfold claimed in H. apply in_flat_map in H. destruct H as (l & Hl & H). unfold claims in H. apply in_map_iff in H. destruct H as (x & E & H). apply filter_In in H. rewrite Forall_forall in F. specialize (F l Hl). rewrite Forall_forall in F. specialize (F x (proj1 H)). unfold triple in E. injection E as <- <- <-. exact F.
Qed.
Definition node_state (n : node) : sstate := SState (n_prefix n) 0 (n_session n) (n_seq n) [].
Lemma all_states_ok cs : Forall (Forall state_ok) cs -> all_states (run (claimed cs)) = Ok (map node_state (t_nodes (run (claimed cs)))).
Proof.
  intro F. unfold all_states. assert (H : forall n, In n (t_nodes (run (claimed cs))) -> u64 (n_seq n) && u64 (n_session n) = true).
  { intros n Hn. apply (nodes_top sha _ n (claimed_ok cs F)) in Hn. destruct Hn as [_ Hn]. apply (state_in cs _ _ _ F) in Hn. unfold u64. lia. }
  induction (t_nodes (run (claimed cs))) as [|n l IH]; [reflexivity|]. cbn [fold_right map]. rewrite IH by (intros; apply H; now right). cbn [rbind]. unfold mk_state. rewrite (H n (or_introl eq_refl)). reflexivity.
Qed.
Lemma claims_nodes l : claims (map node_state l) = map (fun n => (n_prefix n, n_session n, n_seq n)) l.
Proof. induction l as [|n l IH]; [reflexivity|]. cbn [map]. rewrite claims_cons. change (is_update (node_state n)) with true. cbv iota. rewrite IH. reflexivity. Qed.
Lemma top_nodes us p s : Forall claim_ok us -> top (claims (map node_state (t_nodes (run us)))) p s = top us p s.
Proof.
  intro F. rewrite claims_nodes. apply Z.le_antisymm.
  - apply top_le; [apply top_ge|]. intros q H. apply in_map_iff in H. destruct H as (n & E & H). injection E as <- <- <-. destruct (nodes_top sha us n F H) as [-> _]. lia.
  - destruct (Z.eq_dec (top us p s) (-1)) as [->|N]; [apply top_ge|]. destruct (nodes_ex sha us p s F N) as (n & H & <- & <- & E). rewrite <- E. apply top_in. apply in_map_iff. exists n. auto.
Qed.
Lemma nodes_state_ok cs : Forall (Forall state_ok) cs -> Forall state_ok (map node_state (t_nodes (run (claimed cs)))).
Proof.
  intro F. apply Forall_forall. intros x H. apply in_map_iff in H. destruct H as (n & <- & H). apply (nodes_top sha _ n (claimed_ok cs F)) in H. destruct H as [_ H]. apply (state_in cs _ _ _ F) in H. exact H.
Qed.
Lemma empty_tree us p s : Forall claim_ok us -> t_nodes (run us) = [] -> top us p s = -1.
Proof. intros F E. destruct (Z.eq_dec (top us p s) (-1)) as [X|N]; [exact X|]. destruct (nodes_ex sha us p s F N) as (n & H & _). rewrite E in H. destruct H. Qed.

(** The reply to a recovery Interest *)
Lemma recovery_reply cs c n d : G cs c -> c_signs c = [] -> In d (map fst (c_log c)) -> t_nodes (c_tree c) <> [] ->
  recovery_interest n d c = (Chrono (c_log c) (c_tree c) (c_seq c) (c_enabled c) (c_outs c ++ [Put n (map node_state (t_nodes (c_tree c))) (if zlist_eqb (last n []) s00 then Some 1000 else None)]) (c_script c) [], Ok tt).
Proof.
  intros [F T L] Sg I N. unfold recovery_interest, bind at 1, get at 1. destruct (log_find (c_log c) d =? -1) eqn:E; [apply log_find_none in E; contradiction|].
  unfold bind at 1, get at 1. unfold bind at 1, lift at 1. rewrite T at 1. rewrite (all_states_ok cs F). rewrite <- T. destruct (t_nodes (c_tree c)) as [|x r] eqn:En; [congruence|]. cbn [map].
  unfold bind, sign. rewrite Sg. unfold emit. rewrite Sg. reflexivity.
Qed.
(** The reply to a sync Interest *)
Lemma sync_reply cs c a l b d : G cs c -> c_signs c = [] -> logs cs = a ++ (d, l) :: b ->
  let m := map mk (merge_all (c_tree c) (concat (map snd b)) []) in
  sync_interest (zlen a) d c = match m with [] => (c, Ok tt) | _ :: _ => (Chrono (c_log c) (c_tree c) (c_seq c) (c_enabled c) (c_outs c ++ [Put [d] m None]) (c_script c) [], Ok tt) end /\
  Forall state_ok m.
Proof.
  intros [F T L] Sg E m. assert (B : forall e, In e (merge_all (c_tree c) (concat (map snd b)) []) -> In (m_triple e) (claimed cs)).
  { intros e H. destruct (logs_split sha cs _ _ _ _ E) as (k1 & k2 & -> & _ & I). apply (proj1 (proj2 (merge_all_spec _ _))) in H. destruct H as [H _]. rewrite claimed_app. apply in_or_app. right.
    unfold claims in H. apply in_map_iff in H. destruct H as (x & Ex & H). apply filter_In in H. destruct H as [H1 H2]. apply in_concat in H1. destruct H1 as (y & Hy & H1). unfold claimed. apply in_flat_map. exists y. split; [auto|]. unfold claims. rewrite <- Ex. apply in_map, filter_In. auto. }
  split.
  - unfold sync_interest, bind at 1, get at 1. unfold bind at 1, get at 1. rewrite L, E. replace (Z.to_nat (zlen a + 1)) with (length (a ++ [(d, l)])) by (rewrite app_length; cbn [length]; unfold zlen; lia).
    replace (a ++ (d, l) :: b) with ((a ++ [(d, l)]) ++ b) by now rewrite <- app_assoc. rewrite skipn_app, skipn_all, Nat.sub_diag. cbn [skipn app]. rewrite flat_map_concat_map.
    unfold bind at 1, lift at 1. rewrite to_states_ok by (intros e H; apply B in H; unfold m_triple in H; apply (state_in cs _ _ _ F) in H; lia). fold m. destruct m as [|x r]; [reflexivity|].
    unfold bind, sign. rewrite Sg. unfold emit. rewrite Sg, L, E, <- app_assoc. reflexivity.
  - apply Forall_forall. intros x H. unfold m in H. apply in_map_iff in H. destruct H as (e & <- & H). apply B in H. unfold m_triple in H. apply (state_in cs _ _ _ F) in H. exact H.
Qed.

(** Data in a later state, without calls of the application in the callback *)
Lemma callback_quiet a c : c_script c = [] -> callback sha me session a c = (Chrono (c_log c) (c_tree c) (c_seq c) (c_enabled c) (c_outs c ++ [a]) [] (c_signs c), Ok tt).
Proof. intro E. unfold callback, bind, emit, next_calls. cbn [c_script]. rewrite E. reflexivity. Qed.
Lemma data_later cs c n l : G cs c -> Forall state_ok l -> c_enabled c = true -> t_root (c_tree c) <> s00 ->
  let c' := fst (step c (data_for n l)) in
  c_tree c' = run (claimed (cs ++ [l])) /\ c_log c' = logs (cs ++ [l]) /\ c_enabled c' = true /\ snd (step c (data_for n l)) = Ok tt /\
  c_outs c' = [Received (filter is_update l) (zlen n =? 2); Express [t_root (c_tree c')] Sync].
Proof.
  intros HG F En R. assert (HB : G cs (begin (data_for n l) c)) by (destruct HG; constructor; assumption).
  assert (E : step c (data_for n l) = (Chrono (logs (cs ++ [l])) (run (claimed (cs ++ [l]))) (seq_after me (claimed cs) l (c_seq c)) true [Received (filter is_update l) (zlen n =? 2); Express [t_root (run (claimed (cs ++ [l])))] Sync] [] [], Ok tt)).
  { unfold ChronoModel.step. cbn [data_for i_event act_of]. unfold on_data, bind at 1, get at 1. cbn [begin c_enabled]. rewrite En. unfold bind at 1, root at 1, get at 1. cbn [begin c_tree].
    destruct (zlist_eqb (t_root (c_tree c)) s00) eqn:E0; [apply zlist_eqb_eq in E0; contradiction|]. destruct (upd_spec sha Hs me cs l _ HB F) as [Eu _]. cbv zeta in Eu. unfold bind at 1, bind at 1. change (begin (data_for n l) c) with (Chrono (c_log c) (c_tree c) (c_seq c) (c_enabled c) [] [] []) in Eu. unfold begin. cbn [data_for i_calls i_signs].
    rewrite Eu. unfold ret. unfold bind at 1. rewrite callback_quiet by reflexivity. unfold bind, root, get, emit. cbn [c_log c_tree c_seq c_enabled c_outs c_script c_signs app]. rewrite En. reflexivity. }
  cbv zeta. rewrite E. cbn [fst snd c_tree c_log c_enabled c_outs]. auto.
Qed.
End Node.
