(** * C78: examples, and what is false *)
From Verif Require Import Base BaseLemmas BlobModel DigestModel DigestSpec ChronoModel ChronoSpec ChronoProofs ChronoProps.

(** A hash function, not a good one *)
Definition hash (b : bytes) : bytes := [fold_left (fun a x => (31 * a + x + 7) mod 256) b 3; fold_left (fun a x => (17 * a + x + 1) mod 251) b 5].
Lemma fold_range (f : Z -> Z -> Z) (P : Z -> Prop) b a : P a -> (forall a x, P (f a x)) -> P (fold_left f b a).
Proof. intros H K. revert a H. induction b as [|x b IH]; intros a H; [exact H|]. cbn [fold_left]. apply IH, K. Qed.
Example hash_ok : hash_fn hash.
Proof.
  split; [|reflexivity]. intro b. unfold hash. constructor; [|constructor; [|constructor]]; apply (fold_range _ (fun z => is_byte z)); unfold is_byte; try lia; intros a x; [pose proof (Z.mod_pos_bound (31 * a + x + 7) 256 ltac:(lia))|pose proof (Z.mod_pos_bound (17 * a + x + 1) 251 ltac:(lia))]; lia.
Qed.
Definition pa : str := [47; 97].
Definition pb : str := [47; 98].
Lemma pa_ok : encodable pa.
Proof. eexists. reflexivity. Qed.
Lemma pb_ok : encodable pb.
Proof. eexists. reflexivity. Qed.
Notation after_a := (after hash pa 1).
Notation after_b := (after hash pb 2).
Notation root_of c := (t_root (c_tree c)).
Definition first : input := Input (ETimeout [s00] Initial) [] [].
Definition pub : input := Input (EPublish [1]) [] [].

(** ** A group of two: the first times out and publishes; the second joins, asks for the changes, and
    both are in the same state. *)
Definition nodes : list (str * Z) := [(pa, 1); (pb, 2)].
Example nodes_ok : distinct nodes.
Proof. split; [constructor; [intros [H|[]]; discriminate H|constructor; [intros []|constructor]]|]. constructor; [exact pa_ok|constructor; [exact pb_ok|constructor]]. Qed.
Definition a0 : sstate := SState pa 0 1 0 [].
Definition a1 : sstate := SState pa 0 1 1 [1].
Definition b0 : sstate := SState pb 0 2 0 [].
(** The reply to the newcomer *)
Definition all_a : content := [SState pa 0 1 1 []].
Definition history : list (nat * input) :=
  (((([] ++ [(0%nat, first)]) ++ [(0%nat, pub)]) ++ [(0%nat, interest [s00])]) ++ [(1%nat, Input (EData [s00] Initial (Some all_a)) [] [])]) ++ [(0%nat, Input (EData [root_of (after_a [first; pub])] Sync (Some [b0])) [] [])].
Lemma group_step sha ns h m m' n p s i : group sha ns h m -> nth_error ns n = Some (p, s) -> match i_event i with EData _ _ (Some c) => In c m | _ => True end ->
  m' = m ++ flat_map sent (c_outs (fst (step sha p s (at_node sha ns n h) i))) -> group sha ns (h ++ [(n, i)]) m'.
Proof. intros G E K ->. now apply Group_step. Qed.
Example group_holds : exists m, group hash nodes history m /\ not_full hash nodes history /\ In all_a m /\ In [b0] m /\ t_root (c_tree (at_node hash nodes 0 history)) = t_root (c_tree (at_node hash nodes 1 history)) /\
  getProducerPrefixes (at_node hash nodes 0 history) = [(pa, 1); (pb, 2)] /\ getSequenceNo (at_node hash nodes 0 history) = 1 /\ getSequenceNo (at_node hash nodes 1 history) = 0.
Proof.
  exists [[a1]; all_a; [b0]]. split; [|split].
  - unfold history. set (h0 := [] ++ [(0%nat, first)]). assert (G0 : group hash nodes h0 []) by (apply (group_step _ _ [] [] [] 0 pa 1 first); [constructor|reflexivity|exact I|vm_compute; reflexivity]).
    set (h1 := h0 ++ _). assert (G1 : group hash nodes h1 [[a1]]) by (apply (group_step _ _ h0 [] [[a1]] 0 pa 1 pub); [exact G0|reflexivity|exact I|vm_compute; reflexivity]).
    set (h2 := h1 ++ _). assert (G2 : group hash nodes h2 [[a1]; all_a]) by (apply (group_step _ _ h1 [[a1]] [[a1]; all_a] 0 pa 1); [exact G1|reflexivity|exact I|vm_compute; reflexivity]).
    set (h3 := h2 ++ _). assert (G3 : group hash nodes h3 [[a1]; all_a; [b0]]) by (apply (group_step _ _ h2 [[a1]; all_a] [[a1]; all_a; [b0]] 1 pb 2); [exact G2|reflexivity|right; now left|vm_compute; reflexivity]).
    apply (group_step _ _ h3 [[a1]; all_a; [b0]] [[a1]; all_a; [b0]] 0 pa 1); [exact G3|reflexivity|right; right; now left|vm_compute; reflexivity].
  - intros h1 h2 n E. assert (L : forall h, (forall k : nat, c_seq (at_node hash nodes k h) <= 1) -> c_seq (at_node hash nodes n h) < 2 ^ 64 - 1) by (intros h H; specialize (H n); lia). apply L. clear L.
    assert (L : forall h, c_seq (at_node hash nodes 0 h) <= 1 -> c_seq (at_node hash nodes 1 h) <= 1 -> forall k : nat, c_seq (at_node hash nodes k h) <= 1).
    { intros h H0 H1 [|[|k]]; [exact H0|exact H1|]. unfold at_node. destruct k; cbn; lia. }
    replace h1 with (firstn (length h1) history) by (rewrite E, firstn_app, Nat.sub_diag, firstn_all; apply app_nil_r). generalize (length h1). intro k. clear E.
    assert (V : forall h, (c_seq (at_node hash nodes 0 h) <=? 1) && (c_seq (at_node hash nodes 1 h) <=? 1) = true -> forall k : nat, c_seq (at_node hash nodes k h) <= 1) by (intros h X; apply andb_prop in X; destruct X; apply L; lia). apply V. clear L V.
    destruct k as [|[|[|[|[|k]]]]]; [vm_compute; reflexivity..|]. rewrite firstn_all2 by (change (length history) with 5%nat; lia). vm_compute. reflexivity.
  - vm_compute. auto 20.
Qed.

(** [collision_free] holds of the first node, with its two numbers, and of the hash above. *)
Example free : collision_free hash (after_a [first; pub]).
Proof.
  assert (K : forall us, Forall (below (after_a [first; pub])) us -> run hash us = run hash [] \/ run hash us = run hash [(pa, 1, 0)] \/ run hash us = run hash [(pa, 1, 1)]).
  { intros us F. assert (B : forall p s, getProducerSequenceNo (after_a [first; pub]) p s = if prod_dec (pa, 1) (p, s) then 1 else -1).
    { intros p s. destruct (prod_dec (pa, 1) (p, s)) as [E|E]; [injection E as <- <-; reflexivity|]. rewrite (C78_others hash hash_ok pa 1 pa_ok [first; pub] p s); [reflexivity|repeat constructor|repeat constructor; discriminate|congruence]. }
    assert (Fc : Forall claim_ok us) by (eapply Forall_impl; [|exact F]; intros u [A C]; split; [exact A|lia]).
    assert (U : forall p s, (p, s) <> (pa, 1) -> top us p s = -1).
    { intros p s N. destruct (top_wit us p s) as [W|W]; [exact W|]. rewrite Forall_forall in F. destruct (F _ W) as [_ C]. cbn [fst snd] in C. rewrite B in C. destruct (prod_dec (pa, 1) (p, s)); [congruence|lia]. }
    assert (V : top us pa 1 = -1 \/ top us pa 1 = 0 \/ top us pa 1 = 1).
    { destruct (top_wit us pa 1) as [W|W]; [auto|]. rewrite Forall_forall in F. destruct (F _ W) as [_ C]. cbn [fst snd] in C. rewrite B in C. destruct (prod_dec (pa, 1) (pa, 1)); [lia|congruence]. }
    destruct V as [V|[V|V]]; [left|right; left|right; right]; apply (run_same hash (proj1 hash_ok)); try exact Fc; try (constructor; [split; [exact pa_ok|cbn; lia]|constructor]); try constructor; intros p s; cbn [top fst snd]; try destruct (prod_dec (pa, 1) (p, s)) as [E|E]; try (injection E as <- <-; rewrite V; reflexivity); try (apply U; congruence). }
  intros us us' F F' R. destruct (K us F) as [E|[E|E]], (K us' F') as [E'|[E'|E']]; rewrite E, E' in *; try reflexivity; vm_compute in R; discriminate R.
Qed.
(** An Interest for the digest of the earlier state is answered. *)
Example sync_reply : c_outs (fst (step hash pa 1 (after_a [first; pub]) (interest [root_of (after_a [first])]))) = [Keep [root_of (after_a [first])]; Put [root_of (after_a [first])] [SState pa 0 1 1 []] None] /\
  root_of (after_a [first]) <> s00 /\ root_of (after_a [first]) <> root_of (after_a [first; pub]) /\ tidy (claims (concat (logged_after (c_log (after_a [first; pub])) (root_of (after_a [first]))))).
Proof.
  split; [vm_compute; reflexivity|]. split; [vm_compute; intro X; discriminate X|]. split; [vm_compute; intro X; discriminate X|]. replace (claims _) with [(pa, 1, 1)] by (vm_compute; reflexivity). intros a b c p s q s' q' E. exfalso. destruct a as [|x [|y a]]; [injection E as E1 E2 E3 E; destruct b; discriminate E|discriminate E|discriminate E].
Qed.

(** ** False *)
(** A state of the own prefix with another session takes the sequence number back: a number is used again. *)
Definition old_session : content := [SState pa 0 9 0 []].
Theorem C78_other_session_refuted : ~ (forall l, Forall input_ok l -> running l -> undisturbed hash pa 1 l -> getProducerSequenceNo (after_a l) pa 1 <= getSequenceNo (after_a l)).
Proof.
  intro H. specialize (H [first; pub; pub; data_for [] old_session]). assert (X : getProducerSequenceNo (after_a [first; pub; pub; data_for [] old_session]) pa 1 <= getSequenceNo (after_a [first; pub; pub; data_for [] old_session])); [apply H|vm_compute in X; apply X; reflexivity].
  - repeat (constructor; [exact I|]). constructor; [|constructor]. constructor; [|constructor]. split; [exact pa_ok|cbn; lia].
  - repeat (constructor; [split; [discriminate|constructor]|]). constructor.
  - intros l1 i l2 E. do 4 (destruct l1 as [|e l1]; cbn [app] in E; [injection E as <- <-; cbn [i_event first pub data_for]; intro R; vm_compute in R; apply R; reflexivity|injection E as <- E]). destruct l1; discriminate E.
Qed.
(** The call of publishNextSequenceNo after this announces the number 1 again, then raises. *)
Example used_again : let c := after_a [first; pub; pub; data_for [] old_session] in let r := step hash pa 1 c pub in
  c_outs (fst r) = [Add (root_of c) [SState pa 0 1 1 [1]]] /\ snd r = Err RuntimeError /\ getProducerSequenceNo c pa 1 = 2.
Proof. vm_compute. auto. Qed.
(** Of two sessions of a prefix the reply has only the last that was logged: not all that has changed. *)
Theorem C78_two_sessions_refuted : ~ (forall l1 l2 m, Forall input_ok (l1 ++ l2) -> let a1 := after_a l1 in let a := after_a (l1 ++ l2) in
  c_enabled a = true -> root_of a1 <> s00 -> c_outs (fst (step hash pa 1 a (interest [root_of a1]))) = [Keep [root_of a1]; Put [root_of a1] m None] ->
  forall p s, getProducerSequenceNo a p s = Z.max (getProducerSequenceNo a1 p s) (top (claims m) p s)).
Proof.
  intro H. specialize (H [first] [data_for [] [SState pb 0 2 5 []; SState pb 0 3 0 []]] [SState pb 0 3 0 []]). cbv zeta in H. specialize (fun a b c d => H a b c d pb 2). assert (X : getProducerSequenceNo (after_a ([first] ++ [data_for [] [SState pb 0 2 5 []; SState pb 0 3 0 []]])) pb 2 = 5) by (vm_compute; reflexivity). rewrite H in X; [vm_compute in X; discriminate X| |vm_compute; reflexivity|vm_compute; intro Y; discriminate Y|vm_compute; reflexivity].
  constructor; [exact I|]. constructor; [|constructor]. constructor; [split; [exact pb_ok|cbn; lia]|]. constructor; [split; [exact pb_ok|cbn; lia]|constructor].
Qed.
(** Data that cannot be decoded ends the asking: nothing is outstanding. *)
Theorem C78_undecodable_refuted : ~ (forall l o, outstanding hash pa 1 l o -> Forall input_ok l -> running l -> exists k, In ([root_of (after_a l)], k) o).
Proof.
  intro H. assert (O1 : outstanding hash pa 1 [first] [([root_of (after_a [first])], Sync)]).
  { pose proof (Out_step hash pa 1 [] [([s00], Initial)] first (Out_start hash pa 1)) as X. cbv zeta in X. vm_compute in X. vm_compute. apply X. auto. }
  set (bad := Input (EData [root_of (after_a [first])] Sync None) [] []). assert (O2 : outstanding hash pa 1 [first; bad] []).
  { pose proof (Out_step hash pa 1 [first] _ bad O1) as X. vm_compute in X. vm_compute. apply X. auto. }
  apply H in O2; [destruct O2 as [k []]|repeat constructor|]. repeat (constructor; [split; [discriminate|constructor]|]). constructor.
Qed.
(** A call of publishNextSequenceNo that fails to sign uses up a number. *)
Theorem C78_failed_sign_refuted : ~ (forall l, Forall input_ok l -> running l -> getSequenceNo (after_a l) = getProducerSequenceNo (after_a l) pa 1 \/ getSequenceNo (after_a l) = -1).
Proof. intro H. destruct (H [first; Input (EPublish []) [] [false]]) as [X|X]; [repeat constructor|repeat (constructor; [split; [discriminate|constructor]|]); constructor|vm_compute in X; discriminate X|vm_compute in X; discriminate X]. Qed.
