(** * Lemmas about ChronoModel: the outstanding Interests, a group *)
From Verif Require Import Base BaseLemmas BlobModel DigestModel DigestSpec DigestProps ChronoModel ChronoSpec ChronoProofs ChronoProofs2 ChronoProofs3 ChronoProofs4.
Local Open Scope res_scope.

Section Node.
Variable sha : bytes -> bytes.
Hypothesis Hh : hash_fn sha.
Let Hs : sha_fn sha := proj1 Hh.
Variable me : str.
Variable session : Z.
Hypothesis He : encodable me.
Notation run := (run sha).
Notation upd := (upd sha me).
Notation publish := (publish sha me session).
Notation after := (after sha me session).
Notation step := (step sha me session).
Notation tail := (tail sha me session).
Notation G := (G sha).

(** ** The Interests that are expressed *)
Definition shape (n : list str) : Prop := (exists d, n = [d]) \/ (exists d, n = [s_recovery; d]).
Definition shaped (c : chrono) : Prop := forall n k, In (n, k) (flat_map expressed (c_outs c)) -> k = Sync /\ shape n.
Definition fine (a : act) : Prop := match a with Express n k => k = Sync /\ shape n | _ => True end.
Lemma sh_emit a : fine a -> pres shaped (emit a).
Proof.
  intros Ha c H n k J. cbn [fst emit c_outs] in J. rewrite flat_map_app in J. apply in_app_or in J. destruct J as [J|J]; [exact (H n k J)|]. cbn [flat_map] in J. rewrite app_nil_r in J. destruct a; cbn [expressed] in J; try contradiction. destruct J as [J|[]]. injection J as <- <-. exact Ha.
Qed.
Lemma sh_sign : pres shaped sign. Proof. intros c H. unfold sign. destruct (c_signs c); exact H. Qed.
Lemma sh_next : pres shaped next_calls. Proof. intros c H. unfold next_calls. destruct (c_script c); exact H. Qed.
Lemma sh_upd l : pres shaped (upd l).
Proof.
  unfold ChronoModel.upd, root. apply pres_bind; [|intro; apply pres_get; intro; apply pres_get; intro; apply pres_if; [apply pres_bind; [intros c H; exact H|intro; apply pres_ret]|apply pres_ret]].
  induction l as [|x l IH]; cbn [update_all]; [apply pres_ret|]. apply pres_bind; [|intro; exact IH]. apply pres_if; [|apply pres_ret]. apply pres_bind; [intros c H; exact H|intro; apply pres_if; [intros c H; exact H|apply pres_ret]].
Qed.
Ltac sg1 := lazymatch goal with
  | |- pres _ (let _ := _ in _) => cbv zeta
  | |- pres _ (bind (get _) _) => apply pres_get; intro
  | |- pres _ (bind (lift _) _) => apply pres_lift; intros ? ?E
  | |- pres _ (bind _ _) => apply pres_bind; [|intro]
  | |- pres _ (match ?l with [] => _ | _ :: _ => _ end) => destruct l
  | |- pres _ (if _ then _ else _) => apply pres_if
  | |- pres _ (try_log _) => apply pres_try
  | |- pres _ (ret _) => apply pres_ret
  | |- pres _ (raise _) => apply pres_raise
  | |- pres _ (emit _) => apply sh_emit; cbn [fine]; try exact I; try (split; [reflexivity|left; eexists; reflexivity])
  | |- pres _ (set_seq _) => intros ?c ?H; exact H
  | |- pres _ disable => intros ?c ?H; exact H
  | |- pres _ sign => apply sh_sign
  | |- pres _ next_calls => apply sh_next
  | |- pres _ (ChronoModel.upd _ _ _) => apply sh_upd
  end.
Ltac sg := repeat sg1.
Lemma sh_publish info : pres shaped (publish info).
Proof. unfold ChronoModel.publish, broadcast, root. sg. Qed.
Lemma sh_calls l : pres shaped (do_calls sha me session l).
Proof. induction l as [|[info|] l IH]; cbn [do_calls]; unfold shutdown; sg; first [apply sh_publish|exact IH]. Qed.
Lemma sh_callback a : fine a -> pres shaped (callback sha me session a).
Proof. intro Ha. unfold callback. apply pres_bind; [apply sh_emit, Ha|intro]. sg. apply sh_calls. Qed.
Lemma sh_old l : pres shaped (old_comer sha me session l).
Proof. induction l as [|x l IH]; cbn [old_comer]; sg; [apply sh_callback; exact I|exact IH]. Qed.
Lemma sh_step c i : (match i_event i with ETimeout n Sync => shape n | _ => True end) -> shaped (fst (step c i)).
Proof.
  intro Hi. assert (B : shaped (begin i c)) by (intros n k []). unfold ChronoModel.step.
  assert (K : forall m : cm unit, pres shaped m -> shaped (fst (m (begin i c)))) by (intros m H; apply H, B). destruct (i_event i) as [info| |n|n k l|n [|]|d]; cbn [act_of]; apply K.
  - apply sh_publish.
  - unfold shutdown. sg.
  - unfold on_interest, root, recovery_interest, sync_interest. sg.
  - destruct l as [l|]; unfold on_data, root, initial_data, broadcast, root; sg; first [apply sh_old|apply sh_callback; exact I].
  - unfold initial_timeout, root. sg. apply sh_callback. exact I.
  - unfold sync_timeout, root. sg. split; [reflexivity|exact Hi].
  - unfold judge, root, send_recovery, sync_interest. sg. split; [reflexivity|right; eauto].
Qed.
Lemma tail_out a c : In ([t_root (c_tree (fst (tail a c)))], Sync) (flat_map expressed (c_outs (fst (tail a c)))) /\ snd (tail a c) = Ok tt.
Proof.
  unfold ChronoProofs4.tail. assert (X : snd (callback sha me session a c) = Ok tt) by (unfold callback, bind, emit, next_calls; cbn [c_script]; destruct (c_script c); reflexivity).
  unfold bind. destruct (callback sha me session a c) as [c' r]. cbn [snd] in X. subst r. cbn [root get emit fst snd c_tree c_outs]. split; [|reflexivity]. rewrite flat_map_app. apply in_or_app. right. now left.
Qed.
(** Which events leave the root, or express an Interest for the new one *)
Lemma tree_interest t n : pres (fun c => c_tree c = t) (on_interest n).
Proof.
  assert (K : core (fun c => c_tree c = t)) by (intros c c' _ E H; congruence). unfold on_interest, root, recovery_interest, sync_interest.
  repeat lazymatch goal with
  | |- pres _ (let _ := _ in _) => cbv zeta
  | |- pres _ (bind (get _) _) => apply pres_get; intro
  | |- pres _ (bind (lift _) _) => apply pres_lift; intros ? ?E
  | |- pres _ (bind _ _) => apply pres_bind; [|intro]
  | |- pres _ (match ?l with [] => _ | _ :: _ => _ end) => destruct l
  | |- pres _ (if _ then _ else _) => apply pres_if
  | |- pres _ (ret _) => apply pres_ret
  | |- pres _ (emit _) => apply core_emit, K
  | |- pres _ sign => apply core_sign, K
  end.
Qed.
Lemma tree_judge t d : pres (fun c => c_tree c = t) (judge d).
Proof.
  assert (K : core (fun c => c_tree c = t)) by (intros c c' _ E H; congruence). unfold judge, root, send_recovery, sync_interest.
  repeat lazymatch goal with
  | |- pres _ (let _ := _ in _) => cbv zeta
  | |- pres _ (bind (get _) _) => apply pres_get; intro
  | |- pres _ (bind (lift _) _) => apply pres_lift; intros ? ?E
  | |- pres _ (bind _ _) => apply pres_bind; [|intro]
  | |- pres _ (match ?l with [] => _ | _ :: _ => _ end) => destruct l
  | |- pres _ (if _ then _ else _) => apply pres_if
  | |- pres _ (ret _) => apply pres_ret
  | |- pres _ (emit _) => apply core_emit, K
  | |- pres _ sign => apply core_sign, K
  end.
Qed.
Lemma step_listen c i : c_enabled c = true -> keeps_on i -> (match i_event i with EPublish _ | EData _ _ _ | ETimeout _ _ => snd (step c i) = Ok tt | _ => True end) ->
  let c' := fst (step c i) in
  In ([t_root (c_tree c')], Sync) (flat_map expressed (c_outs c')) \/
  c_tree c' = c_tree c /\ forall k, resolved (i_event i) <> Some ([t_root (c_tree c)], k).
Proof.
  intros En [K1 _] Q. cbv zeta. unfold ChronoModel.step in *. destruct (i_event i) as [info| |n|n k l|n [|]|d]; cbn [act_of resolved] in *.
  - left. rewrite publish_eq in *. cbv zeta in *. destruct (mk_state me (c_seq (begin i c) + 1) session info) as [x|x]; [|discriminate Q]. destruct (sign _) as [c2 [u|y]]; [|discriminate Q]. destruct (upd [x] _) as [c3 [[|]|y]]; try discriminate Q. cbn [fst with_out c_tree c_outs]. rewrite flat_map_app. apply in_or_app. right. now left.
  - congruence.
  - right. split; [apply (tree_interest (c_tree c) n); reflexivity|discriminate].
  - left. destruct l as [l|]; [|unfold on_data, bind, get in Q; cbn [begin c_enabled] in Q; rewrite En in Q; discriminate Q]. rewrite on_data_eq in * by exact En. destruct (zlist_eqb _ _).
    + destruct (initial_data sha me session l (begin i c)) as [c1 [u|y]]; [|discriminate Q]. apply tail_out.
    + destruct (upd l (begin i c)) as [c1 [u|y]]; [|discriminate Q]. apply tail_out.
  - left. rewrite initial_eq in *. cbn [begin c_enabled] in *. rewrite En in *. destruct (negb _); [discriminate Q|]. destruct (mk_state _ _ _ _) as [x|x]; [|discriminate Q]. destruct (upd [x] _) as [c1 [u|y]]; [|discriminate Q]. apply tail_out.
  - destruct n as [|d n]; [unfold sync_timeout, bind, get, lift in Q; cbn [begin c_enabled] in Q; rewrite En in Q; discriminate Q|].
    assert (Et : sync_timeout (d :: n) (begin i c) = if zlist_eqb d (t_root (c_tree c)) then (with_out (Express (d :: n) Sync) (begin i c), Ok tt) else (begin i c, Ok tt)).
    { unfold sync_timeout, bind at 1, get at 1. cbn [begin c_enabled]. rewrite En. unfold bind at 1, lift. unfold bind, root, get. change (t_root (c_tree (begin i c))) with (t_root (c_tree c)). destruct (zlist_eqb d (t_root (c_tree c))); reflexivity. }
    rewrite Et. clear Q Et. destruct (zlist_eqb d (t_root (c_tree c))) eqn:E.
    + apply zlist_eqb_eq in E. subst d. destruct n as [|d' n]; [left; now left|]. right. split; [reflexivity|]. intros k X. discriminate X.
    + right. split; [reflexivity|]. intros k X. injection X as X. subst d. rewrite (proj2 (zlist_eqb_eq _ _) eq_refl) in E. discriminate E.
  - right. split; [apply (tree_judge (c_tree c) d); reflexivity|discriminate].
Qed.
Lemma without_in x y l : In y l -> y <> x -> In y (without x l).
Proof. induction l as [|z l IH]; [intros []|]. cbn [without]. intros [->|H] N; destruct (int_dec x _) as [E|E]; [congruence|now left|exact H|right; auto]. Qed.
Lemma listen l o : outstanding sha me session l o -> Forall input_ok l -> running l -> undisturbed sha me session l -> exists k, In ([t_root (c_tree (after l))], k) o.
Proof.
  induction 1 as [|l o i Ho IH Hr]; intros F R U; [exists Initial; now left|]. apply Forall_app in F. destruct F as [F Fi]. apply Forall_app in R. destruct R as [R Ri]. inversion Ri as [|? ? Ki _]; subst.
  assert (U1 : undisturbed sha me session l) by (intros l1 j l2 E; apply (U l1 j (l2 ++ [i])); rewrite E, <- app_assoc; reflexivity). destruct (IH F R U1) as (k & J). rewrite after_snoc.
  pose proof (U l i [] eq_refl) as Ui. destruct (step_listen (after l) i (after_on sha me session l R) Ki) as [L|[L N]].
  - unfold raises in Ui. destruct (i_event i); auto; destruct (snd (step (after l) i)) as [[]|x]; try reflexivity; exfalso; apply Ui; discriminate.
  - exists Sync. apply in_or_app. right. exact L.
  - exists k. apply in_or_app. left. cbv zeta in L. rewrite L. destruct (resolved (i_event i)) as [x|] eqn:Er; [|exact J]. apply without_in; [exact J|]. intro E. apply (N k). congruence.
Qed.
End Node.

(** ** A group *)
Section Group.
Variable sha : bytes -> bytes.
Hypothesis Hh : hash_fn sha.
Let Hs : sha_fn sha := proj1 Hh.
Variable nodes : list (str * Z).
Hypothesis Hd : distinct nodes.
Notation at_node := (at_node sha nodes).
Notation G := (G sha).
Lemma local_same n h i : local n (h ++ [(n, i)]) = local n h ++ [i].
Proof. unfold local. rewrite filter_app, map_app. cbn [filter fst]. rewrite Nat.eqb_refl. reflexivity. Qed.
Lemma local_other n k h i : n <> k -> local k (h ++ [(n, i)]) = local k h.
Proof. intro N. unfold local. rewrite filter_app, map_app. cbn [filter fst]. rewrite (proj2 (Nat.eqb_neq n k) N). apply app_nil_r. Qed.
Lemma at_same n h i p s : nth_error nodes n = Some (p, s) -> at_node n (h ++ [(n, i)]) = fst (step sha p s (at_node n h) i).
Proof. intro E. unfold ChronoSpec.at_node. rewrite E, local_same, after_snoc. reflexivity. Qed.
Lemma at_other n k h i : n <> k -> at_node k (h ++ [(n, i)]) = at_node k h.
Proof. intro N. unfold ChronoSpec.at_node. rewrite (local_other n k h i N). reflexivity. Qed.
Lemma node_enc n p s : nth_error nodes n = Some (p, s) -> encodable p.
Proof. intro E. apply nth_error_In in E. pose proof (proj2 Hd) as F. rewrite Forall_forall in F. apply (F _ E). Qed.
Lemma node_name n n' p s s' : nth_error nodes n = Some (p, s) -> nth_error nodes n' = Some (p, s') -> n = n' /\ s = s'.
Proof.
  intros E E'. assert (X : n = n').
  { apply (proj1 (NoDup_nth_error (map fst nodes)) (proj1 Hd)); [rewrite map_length; apply nth_error_Some; congruence|]. rewrite !nth_error_map, E, E'. reflexivity. }
  subst n'. split; [reflexivity|congruence].
Qed.
Definition owner_of (h : list (nat * input)) (p : str) (s q : Z) : Prop := exists n, nth_error nodes n = Some (p, s) /\ q <= known (c_tree (at_node n h)) p s.
Record gi (b : bool) (h : list (nat * input)) (m : list content) : Prop := GI {
  gi_own : forall n p s, nth_error nodes n = Some (p, s) -> own2 sha p s b (-1) (at_node n h);
  gi_msg : forall l x, In l m -> In x l -> ss_type x = 0 /\ state_ok x /\ owner_of h (ss_name x) (ss_session x) (ss_seq x);
  gi_tree : forall n p s, known (c_tree (at_node n h)) p s <> -1 -> owner_of h p s (known (c_tree (at_node n h)) p s) }.
Definition clean (b : bool) (h : list (nat * input)) : Prop := b = true -> forall h1 n i h2 p s, h = h1 ++ (n, i) :: h2 -> nth_error nodes n = Some (p, s) ->
  u64 s = true /\ Forall (eq true) (i_signs i) /\ ((forall k, i_event i <> ETimeout k Initial) \/ snd (step sha p s (at_node n h1) i) = Ok tt).
Lemma group_ok b h m : (b = true -> forall n p s, nth_error nodes n = Some (p, s) -> u64 s = true) -> group sha nodes h m -> not_full sha nodes h -> clean b h -> gi b h m.
Proof.
  intro Hu. induction 1 as [|h m n p s i Hg IH En Hi]; intros Nf Cl.
  - constructor.
    + intros n p s E. replace (at_node n []) with start by (unfold ChronoSpec.at_node; destruct (nth_error nodes n) as [[? ?]|]; reflexivity).
      split; [exists []; try (cbn; lia); [apply G_start|intros ? ? []|intros ? ? []]|]. intro Eb. split; [eapply Hu; eassumption|]. split; [constructor|reflexivity].
    + intros l x [].
    + intros n p s. replace (at_node n []) with start by (unfold ChronoSpec.at_node; destruct (nth_error nodes n) as [[? ?]|]; reflexivity). intro X. destruct (X eq_refl).
  - assert (I0 : gi b h m).
    { apply IH; [intros h1 h2 k E; apply (Nf h1 (h2 ++ [(n, i)]) k); rewrite E, <- app_assoc; reflexivity|]. intros Eb h1 k j h2 p' s' E. apply (Cl Eb h1 k j (h2 ++ [(n, i)])). rewrite E, <- app_assoc. reflexivity. }
    destruct I0 as [Io Im It]. pose proof (node_enc n p s En) as He.
    assert (Hio : input_ok i).
    { unfold input_ok. destruct (i_event i) as [| | |? ? [c|]| |]; auto. apply Forall_forall. intros x Hx. apply (Im c x Hi Hx). }
    assert (Mo : match i_event i with EData _ _ (Some l) => modest p s (at_node n h) l | _ => True end).
    { destruct (i_event i) as [| | |? ? [c|]| |]; auto. intros x Hx Ex. destruct (Im c x Hi Hx) as (_ & _ & (n' & E' & L)). rewrite Ex in *. destruct (node_name _ _ _ _ _ En E') as [X1 X2]. subst n'. rewrite <- X2 in L. split; [congruence|exact L]. }
    assert (Fl : c_seq (at_node n h) < 2 ^ 64 - 1) by (apply (Nf h [(n, i)] n eq_refl)).
    destruct (step_own sha Hh p s He b (at_node n h) i (Io n p s En) Hio Mo Fl) as [S1 S2]; [intro Eb; apply (Cl Eb h n i [] p s eq_refl En)|]. cbv zeta in *.
    assert (S3 : own2 sha p s b (c_seq (at_node n h)) (fst (step sha p s (at_node n h) i))).
    { apply S2. destruct b; [|now left]. right. destruct (Cl eq_refl h n i [] p s eq_refl En) as (_ & _ & [C|C]); auto. }
    clear S2. set (c := at_node n h) in *. set (c' := fst (step sha p s c i)) in *. pose proof (at_same n h i p s En) as Ea. fold c c' in Ea.
    assert (Sp : exists cs o, G cs c /\ G (cs ++ learns c i ++ o) c' /\ Forall (own_content p s) o).
    { destruct (Io n p s En) as [[cs HG _ _ _ _ _] _]. fold c in HG. destruct (step_core sha Hs p s He c cs i HG Hio) as (o & HG' & Fo). exists cs, o. auto. }
    destruct Sp as (cs & o & HG & HG' & Fo). pose proof (claimed_ok _ (g_ok _ _ _ HG)) as Fc. pose proof (claimed_ok _ (g_ok _ _ _ HG')) as Fc'.
    assert (Kc : forall p' s', known (c_tree c') p' s' = Z.max (known (c_tree c) p' s') (Z.max (top (claimed (learns c i)) p' s') (top (claimed o) p' s'))).
    { intros p' s'. rewrite (g_tree _ _ _ HG), (g_tree _ _ _ HG'), !known_run by assumption. rewrite !claimed_app, !top_app. reflexivity. }
    assert (Up : forall p' s' q, owner_of h p' s' q -> owner_of (h ++ [(n, i)]) p' s' q).
    { intros p' s' q (k & E & L). exists k. split; [exact E|]. destruct (Nat.eq_dec n k) as [<-|N]; [|rewrite at_other by exact N; exact L]. rewrite Ea, Kc. fold c in L. lia. }
    assert (Tr : forall p' s', known (c_tree c') p' s' <> -1 -> owner_of (h ++ [(n, i)]) p' s' (known (c_tree c') p' s')).
    { intros p' s' N. destruct (prod_dec (p', s') (p, s)) as [E|E]; [injection E as -> ->; exists n; split; [exact En|rewrite Ea; lia]|].
      rewrite Kc in *. rewrite (own_claims p s o p' s' Fo E) in *. pose proof (top_ge (claimed (learns c i)) p' s') as T1.
      destruct (Z.max_spec (known (c_tree c) p' s') (Z.max (top (claimed (learns c i)) p' s') (-1))) as [[L1 L2]|[L1 L2]]; rewrite L2 in *.
      - rewrite Z.max_l in * by lia. destruct (top_wit (claimed (learns c i)) p' s') as [W|W]; [congruence|]. apply Up. unfold learns in W at 2. destruct (i_event i) as [| | |? ? [l|]| |]; try destruct W. destruct (c_enabled c); [|destruct W]. unfold claimed in W at 2. cbn [flat_map] in W. rewrite app_nil_r in W.
        unfold claims in W. apply in_map_iff in W. destruct W as (x & Ex & W). apply filter_In in W. destruct (Im l x Hi (proj1 W)) as (_ & _ & O). unfold triple in Ex. injection Ex as E1 E2 E3. rewrite E1, E2, E3 in O. exact O.
      - apply Up, It. exact N. }
    constructor.
    + intros k p' s' E. destruct (Nat.eq_dec n k) as [<-|N]; [|rewrite at_other by exact N; apply Io, E]. rewrite Ea. rewrite En in E. injection E as <- <-. destruct S3 as [[k1 k2 k3 k4 k5 k6 k7] S3]. split; [exists k1; try assumption|exact S3].
    + intros l x Hl Hx. apply in_app_or in Hl. destruct Hl as [Hl|Hl]; [destruct (Im l x Hl Hx) as (A & B & D); split; [exact A|split; [exact B|apply Up, D]]|].
      destruct (o_said _ _ _ _ _ S1 l x Hl Hx) as (A & B & D). split; [exact A|]. split; [exact B|]. destruct B as (_ & B & _). destruct (Tr (ss_name x) (ss_session x)) as (k & Ek & L); [lia|]. exists k. split; [exact Ek|lia].
    + intros k p' s' N. destruct (Nat.eq_dec n k) as [<-|Nk]; [rewrite Ea in *; apply Tr, N|]. rewrite at_other in * by exact Nk. apply Up, It, N.
Qed.
End Group.
