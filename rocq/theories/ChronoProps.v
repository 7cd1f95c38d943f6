(** * C78: ChronoSync2013 *)
From Verif Require Import Base BaseLemmas BlobModel DigestModel DigestSpec DigestProps ChronoModel ChronoSpec ChronoProofs ChronoProofs2 ChronoProofs3 ChronoProofs4 ChronoProofs5.
Local Open Scope res_scope.

Section Node.
Variable sha : bytes -> bytes.
Hypothesis Hh : hash_fn sha.
Let Hs : sha_fn sha := proj1 Hh.
Variable me : str.
Variable session : Z.
Hypothesis He : encodable me.
Notation after := (after sha me session).
Notation step := (step sha me session).
Notation root_of c := (t_root (c_tree c)).

(** ** What an object knows *)
(** The number reported for another producer is the highest one received for it, -1 if there is none. *)
Theorem C78_others : forall l p s, Forall input_ok l -> running l -> (p, s) <> (me, session) -> getProducerSequenceNo (after l) p s = top (heard l) p s.
Proof.
  intros l p s F R N. destruct (after_core sha Hs me session He l F) as (cs & HG & T). rewrite gps_known, (g_tree _ _ _ HG), known_run by (apply claimed_ok, (g_ok _ _ _ HG)). apply T; assumption.
Qed.
(** The producers listed are those with a number, each once. *)
Theorem C78_prefixes : forall l, Forall input_ok l -> NoDup (getProducerPrefixes (after l)) /\ forall p s, In (p, s) (getProducerPrefixes (after l)) <-> getProducerSequenceNo (after l) p s <> -1.
Proof.
  intros l F. destruct (after_core sha Hs me session He l F) as (cs & HG & _). pose proof (claimed_ok _ (g_ok _ _ _ HG)) as Fc. split.
  - unfold getProducerPrefixes. rewrite (g_tree _ _ _ HG). pose proof (C34_sorted sha (claimed cs)) as So. set (ns := t_nodes _) in *. clearbody ns. clear - So. induction So as [|n ns S IH Fn]; [constructor|]. cbn [map]. constructor; [|exact IH].
    intro X. apply in_map_iff in X. destruct X as (n' & E & X). rewrite Forall_forall in Fn. apply (node_before_irr n). eapply node_before_key; [reflexivity| |apply (Fn n' X)]. unfold key. exact E.
  - intros p s. rewrite gps_known, (g_tree _ _ _ HG), known_run by exact Fc. unfold getProducerPrefixes. rewrite (g_tree _ _ _ HG). split.
    + intro X. apply in_map_iff in X. destruct X as (n & E & X). injection E as <- <-. destruct (nodes_top sha _ n Fc X) as [<- Y]. rewrite Forall_forall in Fc. pose proof (proj2 (Fc _ Y)) as Z0. cbn [snd] in Z0. lia.
    + intro N. destruct (nodes_ex sha _ p s Fc N) as (n & X & <- & <- & _). apply in_map_iff. exists n. auto.
Qed.
(** No number goes back. *)
Theorem C78_monotone : forall l l' p s, Forall input_ok (l ++ l') -> getProducerSequenceNo (after l) p s <= getProducerSequenceNo (after (l ++ l')) p s.
Proof.
  intros l l' p s F. apply Forall_app in F. destruct F as [F F']. destruct (after_core sha Hs me session He l F) as (cs & HG & _). destruct (after_more sha Hs me session He l l' cs F' HG) as (cs' & HG').
  rewrite !gps_known, (g_tree _ _ _ HG), (g_tree _ _ _ HG'), !known_run by (apply claimed_ok; first [apply (g_ok _ _ _ HG)|apply (g_ok _ _ _ HG')]). rewrite claimed_app, top_app. lia.
Qed.
(** Two objects that know the same have the same root digest, and the same list of producers. *)
Theorem C78_root : forall me' session' l l', encodable me' -> Forall input_ok l -> Forall input_ok l' -> (forall p s, getProducerSequenceNo (after l) p s = getProducerSequenceNo (ChronoModel.after sha me' session' l') p s) ->
  root_of (after l) = root_of (ChronoModel.after sha me' session' l') /\ getProducerPrefixes (after l) = getProducerPrefixes (ChronoModel.after sha me' session' l').
Proof.
  intros me' session' l l' He' F F' E. destruct (after_core sha Hs me session He l F) as (cs & HG & _). destruct (after_core sha Hs me' session' He' l' F') as (cs' & HG' & _).
  pose proof (claimed_ok _ (g_ok _ _ _ HG)) as Fc. pose proof (claimed_ok _ (g_ok _ _ _ HG')) as Fc'. unfold getProducerPrefixes. rewrite (g_tree _ _ _ HG), (g_tree _ _ _ HG').
  rewrite (run_same sha Hs (claimed cs) (claimed cs') Fc Fc'); [auto|]. intros p s. specialize (E p s). rewrite !gps_known, (g_tree _ _ _ HG), (g_tree _ _ _ HG'), !known_run in E by assumption. exact E.
Qed.

(** ** Interests *)
(** While the application does not shut it down and nothing raises, there is an Interest for the
    current root digest that is neither answered nor timed out. *)
Theorem C78_listening : forall l o, outstanding sha me session l o -> Forall input_ok l -> running l -> undisturbed sha me session l -> exists k, In ([root_of (after l)], k) o.
Proof. apply listen. Qed.
(** After shutdown, an event that is no call of the application does nothing. *)
Theorem C78_shutdown : forall c i, c_enabled c = false -> match i_event i with EPublish _ | EShutdown => False | _ => True end ->
  let c' := fst (step c i) in snd (step c i) = Ok tt /\ c_outs c' = [] /\ c_log c' = c_log c /\ c_tree c' = c_tree c /\ c_seq c' = c_seq c /\ c_enabled c' = false.
Proof.
  intros c i En K. assert (E : step c i = (begin i c, Ok tt)); [|rewrite E; cbn; auto 10]. unfold ChronoModel.step.
  destruct (i_event i) as [info| |n|n k l|n [|]|d]; try destruct K; cbn [act_of]; [unfold on_interest|unfold on_data|unfold initial_timeout|unfold sync_timeout|unfold judge]; unfold bind, get; cbn [begin c_enabled]; rewrite En; reflexivity.
Qed.
(** An Interest for the current root digest is kept; one for a digest that never was the root is kept
    and the object waits, then asks for recovery if it still does not know it. *)
Theorem C78_same_root : forall c, c_enabled c = true -> root_of c <> s00 -> step c (interest [root_of c]) = (Chrono (c_log c) (c_tree c) (c_seq c) true [Keep [root_of c]] [] [], Ok tt).
Proof.
  intros c En N. unfold ChronoModel.step, interest. cbn [i_event act_of]. unfold on_interest, bind at 1, get at 1. cbn [begin c_enabled]. rewrite En. unfold bind at 1, lift. cbv zeta. change (zlen [root_of c] =? 2) with false. cbn [orb].
  destruct (zlist_eqb (root_of c) s00) eqn:E; [apply zlist_eqb_eq in E; contradiction|]. unfold bind, emit, root, get. cbn [begin c_tree i_calls i_signs c_log c_seq c_enabled c_outs c_script c_signs app]. rewrite (proj2 (zlist_eqb_eq _ _) eq_refl). cbn [negb]. unfold ret. rewrite En. reflexivity.
Qed.
Theorem C78_unknown_digest : forall c d, c_enabled c = true -> d <> s00 -> d <> root_of c -> ~ In d (map fst (c_log c)) ->
  step c (interest [d]) = (Chrono (c_log c) (c_tree c) (c_seq c) true [Keep [d]; Timer d] [] [], Ok tt) /\
  step c (Input (EJudge d) [] []) = (Chrono (c_log c) (c_tree c) (c_seq c) true [Express [s_recovery; d] Sync] [] [], Ok tt).
Proof.
  intros c d En N Nr Nl. apply log_find_none in Nl. destruct c as [lg tr sq en os sc sg]. cbn [c_enabled c_log c_tree c_seq] in *. subst en. split.
  - unfold ChronoModel.step, interest. cbn [i_event act_of]. unfold on_interest, bind at 1, get at 1. cbn [begin c_enabled]. unfold bind at 1, lift. cbv zeta. change (zlen [d] =? 2) with false. cbn [orb].
    destruct (zlist_eqb d s00) eqn:E; [apply zlist_eqb_eq in E; contradiction|]. unfold bind, emit, root, get. unfold begin. cbn [c_tree i_calls i_signs c_log c_seq c_enabled c_outs c_script c_signs app]. destruct (zlist_eqb d (t_root tr)) eqn:E2; [apply zlist_eqb_eq in E2; contradiction|]. cbn [negb c_log]. rewrite Nl. cbn [c_tree c_log c_seq c_enabled c_outs c_script c_signs app]. reflexivity.
  - unfold ChronoModel.step. cbn [i_event act_of]. unfold judge, bind at 1, get at 1. cbn [begin c_enabled]. unfold bind at 1, get at 1. unfold begin. cbn [c_log]. cbv zeta. rewrite Nl. unfold send_recovery, emit. unfold begin. cbn [c_log c_tree c_seq c_enabled c_outs c_script c_signs i_calls i_signs app]. reflexivity.
Qed.
(** The digest of every state so far is known. *)
Theorem C78_digests : forall l1 l2, Forall input_ok (l1 ++ l2) -> NoDup (map fst (c_log (after (l1 ++ l2)))) /\ In (root_of (after l1)) (map fst (c_log (after (l1 ++ l2)))).
Proof.
  intros l1 l2 F. apply Forall_app in F. destruct F as [F F']. destruct (after_core sha Hs me session He l1 F) as (cs & HG & _). destruct (after_more sha Hs me session He l1 l2 cs F' HG) as (cs' & HG').
  rewrite (g_log _ _ _ HG'), (g_tree _ _ _ HG). split; [apply logs_ok|]. clear HG' F'. induction cs' as [|x cs' IH] using rev_ind; [rewrite app_nil_r; apply logs_ok|]. rewrite app_assoc, logs_snoc. cbv zeta. destruct (log_find _ _ =? -1); [rewrite map_app; apply in_or_app; left|]; exact IH.
Qed.

(** ** Recovery *)
Definition recovers (d : str) (n : list str) : Prop := n = [s_recovery; d] \/ n = [s00].
(** A recovery Interest for the digest of any state so far, or a newcomer's Interest, is answered with
    exactly what the object knows. *)
Theorem C78_recovery : forall l1 l2 n, Forall input_ok (l1 ++ l2) -> let a := after (l1 ++ l2) in
  c_enabled a = true -> root_of a <> s00 -> recovers (root_of (after l1)) n ->
  exists m f, c_outs (fst (step a (interest n))) = [Put n m f] /\ snd (step a (interest n)) = Ok tt /\ Forall state_ok m /\ NoDup (map (fun x => (ss_name x, ss_session x)) m) /\
    (forall p s, top (claims m) p s = getProducerSequenceNo a p s) /\ (f = Some 1000 <-> n = [s00] \/ root_of (after l1) = s00).
Proof.
  intros l1 l2 n F a En Nr Rn. pose proof F as F0. apply Forall_app in F. destruct F as [F F']. destruct (C78_digests l1 l2 F0) as [_ Il]. destruct (C78_prefixes (l1 ++ l2) F0) as [Nd _]. destruct (C78_digests [] (l1 ++ l2) F0) as [_ I0]. fold a in Il, Nd. cbn [app] in I0. fold a in I0. change (root_of (after [])) with s00 in I0.
  destruct (after_core sha Hs me session He (l1 ++ l2) F0) as (cs & HG & _). fold a in HG. pose proof (claimed_ok _ (g_ok _ _ _ HG)) as Fc.
  assert (Nn : t_nodes (c_tree a) <> []) by (intro X; apply Nr; rewrite (g_tree _ _ _ HG) in *; now apply (root_00 sha Hh)).
  set (d := match n with [_; d] => d | d :: _ => d | [] => [] end). assert (Ed : In d (map fst (c_log a))) by (destruct Rn as [->| ->]; [exact Il|exact I0]).
  assert (HB : G sha cs (begin (interest n) a)) by (destruct HG; constructor; assumption).
  assert (E : step a (interest n) = recovery_interest n d (begin (interest n) a)).
  { unfold ChronoModel.step, interest at 1. cbn [i_event act_of]. unfold on_interest, bind at 1, get at 1. cbn [begin c_enabled]. rewrite En. destruct Rn as [->| ->]; unfold bind at 1, lift; reflexivity. }
  rewrite E, (recovery_reply sha cs _ n d HB eq_refl Ed Nn). cbn [fst snd c_outs begin app c_tree]. eexists. eexists. split; [reflexivity|]. split; [reflexivity|]. rewrite (g_tree _ _ _ HG) in *. split; [apply nodes_state_ok, (g_ok _ _ _ HG)|]. split.
  - rewrite map_map. unfold getProducerPrefixes in Nd. rewrite (g_tree _ _ _ HG) in Nd. exact Nd.
  - split; [intros p s; rewrite top_nodes by exact Fc; rewrite gps_known, (g_tree _ _ _ HG), known_run by exact Fc; reflexivity|].
    destruct Rn as [->| ->]; cbn [last]; [|split; [auto|reflexivity]]. destruct (zlist_eqb (root_of (after l1)) s00) eqn:Ez; [apply zlist_eqb_eq in Ez; split; auto|]. split; [discriminate|]. intros [X|X]; [discriminate X|]. rewrite X, (proj2 (zlist_eqb_eq s00 s00) eq_refl) in Ez. discriminate Ez.
Qed.
(** The receiver of a message then knows the highest numbers of both, and tells the application. *)
Theorem C78_join : forall l n m, Forall input_ok l -> Forall state_ok m -> c_enabled (after l) = true -> root_of (after l) <> s00 ->
  let c' := after (l ++ [data_for n m]) in
  (forall p s, getProducerSequenceNo c' p s = Z.max (getProducerSequenceNo (after l) p s) (top (claims m) p s)) /\ c_enabled c' = true /\
  c_outs c' = [Received (filter (fun x => ss_type x =? 0) m) (zlen n =? 2); Express [root_of c'] Sync].
Proof.
  intros l n m F Fm En Nr. cbv zeta. rewrite after_snoc. destruct (after_core sha Hs me session He l F) as (cs & HG & _). destruct (data_later sha Hs me session cs (after l) n m HG Fm En Nr) as (T & L & En' & _ & O). cbv zeta in *.
  split; [|split; [exact En'|exact O]]. intros p s. rewrite !gps_known, T, (g_tree _ _ _ HG), !known_run; [rewrite claimed_snoc, top_app; reflexivity|apply claimed_ok, (g_ok _ _ _ HG)|].
  apply claimed_ok, Forall_app. split; [apply (g_ok _ _ _ HG)|constructor; [exact Fm|constructor]].
Qed.
Lemma callback_plain a c : c_script c = [] -> callback sha me session a c = (with_out a c, Ok tt).
Proof. intro E. unfold callback, bind, emit, next_calls, try_log. cbn [c_script]. rewrite E. unfold with_out. rewrite E. reflexivity. Qed.
Lemma tail_plain a c : c_script c = [] -> tail sha me session a c = (with_out (Express [root_of c] Sync) (with_out a c), Ok tt).
Proof. intro E. unfold tail, bind at 1. rewrite callback_plain by exact E. reflexivity. Qed.

(** ** Starting *)
(** When the first Interest times out, the object is the first of its group: it takes the number 0. *)
Theorem C78_first : forall l, Forall input_ok l -> let c := after l in c_enabled c = true -> getSequenceNo c = -1 -> getProducerSequenceNo c me session = -1 -> 0 <= session < 2 ^ 64 ->
  let i := Input (ETimeout [s00] Initial) [] [] in let c' := after (l ++ [i]) in
  snd (step c i) = Ok tt /\ getSequenceNo c' = 0 /\ (forall p s, getProducerSequenceNo c' p s = if prod_dec (me, session) (p, s) then 0 else getProducerSequenceNo c p s) /\ c_outs c' = [Initialized; Express [root_of c'] Sync].
Proof.
  intros l F c En Q K S i c'. unfold c'. rewrite after_snoc. fold c. destruct (after_core sha Hs me session He l F) as (cs & HG & _). fold c in HG. pose proof (claimed_ok _ (g_ok _ _ _ HG)) as Fc.
  unfold ChronoModel.step. cbn [i i_event act_of]. rewrite initial_eq. cbn [begin c_enabled c_seq]. rewrite En. unfold getSequenceNo in Q. rewrite Q. change (negb (-1 + 1 =? 0)) with false. cbv iota. unfold mk_state. replace (u64 (-1 + 1) && u64 session) with true by (unfold u64; lia). change (-1 + 1) with 0.
  set (x := SState me UPDATE session 0 []). set (c0 := with_seq 0 (begin i c)). assert (HG0 : G sha cs c0) by (destruct HG; constructor; assumption).
  assert (Fx : Forall state_ok [x]) by (constructor; [split; [exact He|split; cbn; lia]|constructor]). destruct (upd_spec sha Hs me cs [x] c0 HG0 Fx) as [Eu HG1]. cbv zeta in Eu. rewrite Eu in *. cbn [fst] in HG1. cbn [seq_after].
  unfold tail, callback, bind, emit, next_calls, root, get, try_log. cbn [c_script c0 with_seq begin i i_calls c_log c_tree c_seq c_enabled c_outs c_signs do_calls ret fst snd app]. split; [reflexivity|].
  rewrite gps_known, (g_tree _ _ _ HG), known_run in K by exact Fc. split; [|split; [|reflexivity]].
  - unfold getSequenceNo. cbn [c_seq]. destruct (is_update x); [|reflexivity]. match goal with |- (if ?b then _ else _) = _ => destruct b; reflexivity end.
  - intros p s. rewrite !gps_known, (g_tree _ _ _ HG). cbn [c_tree]. rewrite !known_run; [|exact Fc|apply claimed_ok, (g_ok _ _ _ HG1)]. rewrite claimed_snoc, top_app. change (claims [x]) with [(me, session, 0)]. cbn [top fst snd]. destruct (prod_dec (me, session) (p, s)) as [E|E]; [injection E as <- <-; rewrite K; lia|]. pose proof (top_ge (claimed cs) p s). lia.
Qed.
(** An object that receives its first message, one that does not name it, learns all of it, takes the
    number 0 and announces this under the digest of what it has learned. *)
Theorem C78_newcomer : forall l n k m, Forall input_ok l -> Forall state_ok m -> (forall x, In x m -> ss_name x <> me) -> 0 <= session < 2 ^ 64 ->
  let c := after l in c_enabled c = true -> getSequenceNo c = -1 -> root_of c = s00 ->
  let i := Input (EData n k (Some m)) [] [] in let c' := after (l ++ [i]) in collision_free sha c' ->
  snd (step c i) = Ok tt /\ getSequenceNo c' = 0 /\ (forall p s, getProducerSequenceNo c' p s = top (claims m ++ [(me, session, 0)]) p s) /\
  c_outs c' = [Add (t_root (run sha (claims m))) [SState me 0 session 0 []]; Initialized; Received (filter (fun x => ss_type x =? 0) m) true; Express [root_of c'] Sync].
Proof.
  intros l n k m F Fm Nm S c En Q R i c' Cf. destruct (after_core sha Hs me session He l F) as (cs & HG & _). fold c in HG. pose proof (claimed_ok _ (g_ok _ _ _ HG)) as Fc.
  assert (Em : t_nodes (run sha (claimed cs)) = []) by (apply (root_00 sha Hh _ Fc); rewrite <- (g_tree _ _ _ HG); exact R).
  assert (T0 : forall p s, top (claimed cs) p s = -1) by (intros; now apply (empty_tree sha)).
  assert (Lg : map fst (logs sha cs) = [s00]).
  { pose proof (g_ok _ _ _ HG) as Fo. clear - T0 Fo Hs Hh. induction cs as [|x cs IH] using rev_ind; [reflexivity|]. apply Forall_app in Fo. destruct Fo as [Fo Fx]. rewrite logs_snoc. cbv zeta.
    assert (T1 : forall p s, top (claimed cs) p s = -1 /\ top (claimed cs ++ claims x) p s = -1) by (intros p s; specialize (T0 p s); rewrite claimed_snoc in T0; split; [|exact T0]; rewrite top_app in T0; pose proof (top_ge (claimed cs) p s); lia).
    rewrite (run_same sha Hs (claimed cs ++ claims x) []); [|apply Forall_app; split; [apply claimed_ok, Fo|apply claims_ok; now inversion Fx]|constructor|intros p s; apply T1]. assert (I : log_find (logs sha cs) (t_root (run sha [])) =? -1 = false).
    { destruct (log_find (logs sha cs) (t_root (run sha [])) =? -1) eqn:E; [|reflexivity]. apply log_find_none in E. exfalso. apply E. rewrite IH; [now left|intros; apply T1|exact Fo]. }
    rewrite I. apply IH; [intros; apply T1|exact Fo]. }
  set (c0 := begin i c). assert (HG0 : G sha cs c0) by (destruct HG; constructor; assumption). destruct (upd_spec sha Hs me cs m c0 HG0 Fm) as [Eu HG1]. cbv zeta in Eu. pose proof (claimed_ok _ (g_ok _ _ _ HG1)) as Fc1.
  assert (Nt : top (claimed (cs ++ [m])) me session = -1).
  { rewrite claimed_snoc, top_app, T0. destruct (top_wit (claims m) me session) as [W|W]; [rewrite W; reflexivity|]. exfalso. unfold claims in W. apply in_map_iff in W. destruct W as (x & Ex & W). apply filter_In in W. apply (Nm x (proj1 W)). unfold triple in Ex. congruence. }
  assert (Sq : seq_after me (claimed cs) m (-1) = -1).
  { clear - Nm. revert Nm. generalize (claimed cs). induction m as [|x m IH]; intros us Nm; [reflexivity|]. cbn [seq_after]. destruct (zlist_eqb me (ss_name x)) eqn:E; [apply zlist_eqb_eq in E; exfalso; apply (Nm x); [now left|congruence]|]. rewrite andb_false_r. destruct (is_update x); apply IH; intros; apply Nm; now right. }
  assert (Ru : run sha (claimed (cs ++ [m])) = run sha (claims m)) by (apply (run_same sha Hs); [exact Fc1|apply claims_ok, Fm|intros p s; rewrite claimed_snoc, top_app, T0; pose proof (top_ge (claims m) p s); lia]).
  unfold c' in *. rewrite after_snoc in *. fold c in Cf |- *.
  set (x := SState me UPDATE session 0 []). assert (Fx : Forall state_ok [x]) by (constructor; [split; [exact He|split; cbn; lia]|constructor]).
  set (c3 := with_seq 0 (with_out (Add (t_root (run sha (claims m))) [x]) (fst (upd sha me m c0)))). assert (HG3 : G sha (cs ++ [m]) c3) by (destruct HG1; constructor; assumption).
  destruct (upd_spec sha Hs me (cs ++ [m]) [x] c3 HG3 Fx) as [Eu3 HG4]. cbv zeta in Eu3. pose proof (claimed_ok _ (g_ok _ _ _ HG4)) as Fc4.
  assert (K4 : forall p s, top (claimed ((cs ++ [m]) ++ [[x]])) p s = top (claims m ++ [(me, session, 0)]) p s) by (intros p s; rewrite !claimed_snoc, !top_app, T0; change (claims [x]) with [(me, session, 0)]; pose proof (top_ge (claims m) p s); lia).
  set (b := log_find _ _ =? -1) in Eu3. 
  assert (Sc3 : c_script c3 = []) by (unfold c3; rewrite Eu; reflexivity). set (c4 := fst (upd sha me [x] c3)) in *. assert (Sc4 : c_script c4 = []) by (unfold c4; rewrite Eu3; exact Sc3).
  assert (E : step c i = tail sha me session (Received (filter is_update m) true) (if b then with_out Initialized c4 else c4)).
  { unfold ChronoModel.step. cbn [i i_event act_of]. fold i. fold c0. rewrite on_data_eq by exact En. change (t_root (c_tree c0)) with (root_of c). rewrite R. cbn [zlist_eqb]. change (zlist_eqb s00 s00) with true. cbv iota.
    rewrite initial_data_eq; [|exact Nm|rewrite (g_tree _ _ _ HG1), known_run by exact Fc1; exact Nt|rewrite (g_tree _ _ _ HG1), find_run, Nt by exact Fc1; reflexivity]. rewrite Eu. cbn [c_seq]. change (c_seq c0) with (c_seq c). unfold getSequenceNo in Q. rewrite Q, Sq. change (0 <=? -1) with false. cbv iota. unfold mk_state at 1. replace (u64 0 && u64 session) with true by (unfold u64; lia).
    unfold sign. cbn [c_signs c0 begin i i_signs]. cbv zeta. cbn [c_seq]. change (-1 + 1) with 0. unfold mk_state. replace (u64 0 && u64 session) with true by (unfold u64; lia). fold x.
    match goal with |- context [upd sha me [x] ?u] => replace u with c3 by (unfold c3; rewrite Eu; unfold with_seq, with_out, c0; cbn [fst c_log c_tree c_seq c_enabled c_outs c_script c_signs begin i i_calls i_signs]; rewrite Ru; reflexivity) end.
    assert (Ec4 : upd sha me [x] c3 = (c4, Ok b)) by (unfold c4; rewrite Eu3; reflexivity). rewrite Ec4. destruct b; [|reflexivity]. rewrite callback_plain by exact Sc4. reflexivity. }
  assert (T4 : c_tree (fst (step c i)) = run sha (claimed ((cs ++ [m]) ++ [[x]]))).
  { rewrite E, tail_plain by (destruct b; exact Sc4). cbn [fst c_tree]. rewrite <- (g_tree _ _ _ HG4). destruct b; reflexivity. }
  assert (K' : forall p s, getProducerSequenceNo (fst (step c i)) p s = top (claims m ++ [(me, session, 0)]) p s) by (intros p s; rewrite gps_known, T4, known_run by exact Fc4; apply K4).
  assert (Hb : b = true).
  { unfold b. apply log_find_none. intro I. assert (J : t_root (run sha (claimed ((cs ++ [m]) ++ [[x]]))) = s00 \/ t_root (run sha (claimed ((cs ++ [m]) ++ [[x]]))) = t_root (run sha (claims m))).
    { rewrite logs_snoc in I at 1. cbv zeta in I. rewrite <- claimed_snoc, Ru in I. destruct (log_find (logs sha cs) (t_root (run sha (claims m))) =? -1); [rewrite map_app in I; apply in_app_or in I; destruct I as [I|[I|[]]]; [|right; symmetry; exact I]|]; rewrite Lg in I; destruct I as [I|[]]; left; symmetry; exact I. }
    assert (T1 : top (claimed ((cs ++ [m]) ++ [[x]])) me session = 0). { rewrite K4, top_app. rewrite claimed_snoc, top_app, T0 in Nt. cbn [top fst snd]. destruct (prod_dec (me, session) (me, session)); [|congruence]. pose proof (top_ge (claims m) me session). lia. }
    destruct J as [J|J].
    - apply (root_00 sha Hh _ Fc4) in J. rewrite (empty_tree sha _ _ _ Fc4 J) in T1. lia.
    - apply Cf in J; [|apply Forall_forall; intros [[p s] q] Hu; split; [rewrite Forall_forall in Fc4; apply (Fc4 _ Hu)|cbn [fst snd]; rewrite K', <- K4; apply top_in in Hu as Hv; rewrite Forall_forall in Fc4; pose proof (proj2 (Fc4 _ Hu)) as Z0; cbn [snd] in Z0; lia]|
        apply Forall_forall; intros [[p s] q] Hu; pose proof (claims_ok _ Fm) as Fcm; rewrite Forall_forall in Fcm; split; [apply (Fcm _ Hu)|cbn [fst snd]; rewrite K', top_app; apply top_in in Hu as Hv; pose proof (proj2 (Fcm _ Hu)) as Z0; cbn [snd] in Z0; lia]].
      pose proof (known_run sha _ me session Fc4) as X. rewrite J, T1, known_run in X by (apply claims_ok, Fm). rewrite claimed_snoc, top_app, T0 in Nt. lia. }
  rewrite Hb in E. rewrite tail_plain in E by exact Sc4. split; [rewrite E; reflexivity|]. split; [|split; [exact K'|]].
  - rewrite E. unfold getSequenceNo. cbn [fst c_seq with_out]. unfold c4. rewrite Eu3. cbn [fst c_seq]. cbn [seq_after]. destruct (is_update x); [|reflexivity]. match goal with |- (if ?b then _ else _) = _ => destruct b; reflexivity end.
  - rewrite E. cbn [fst c_outs with_out c_tree]. unfold c4. rewrite Eu3. cbn [fst c_outs c_tree]. unfold c3. cbn [with_seq with_out c_outs]. rewrite Eu. reflexivity.
Qed.
Lemma old_comer_app l1 l2 c : (forall x, In x l1 -> ss_name x <> me) -> old_comer sha me session (l1 ++ l2) c = old_comer sha me session l2 c.
Proof.
  induction l1 as [|x l IH]; intro H; [reflexivity|]. cbn [app old_comer]. destruct (zlist_eqb (ss_name x) me) eqn:E; [apply zlist_eqb_eq in E; destruct (H x (or_introl eq_refl) E)|]. cbn [andb]. unfold bind, ret. apply IH. intros; apply H; now right.
Qed.
Lemma seq_after_app l1 l2 : forall us q, seq_after me us (l1 ++ l2) q = seq_after me (us ++ claims l1) l2 (seq_after me us l1 q).
Proof.
  induction l1 as [|x l IH]; intros us q; [cbn; now rewrite app_nil_r|]. cbn [app seq_after]. rewrite claims_cons. destruct (is_update x); rewrite IH; [now rewrite <- app_assoc|reflexivity].
Qed.
Lemma seq_after_none l : (forall x, In x l -> ss_name x <> me) -> forall us q, seq_after me us l q = q.
Proof.
  intro N. induction l as [|x l IH]; intros us q; [reflexivity|]. cbn [seq_after]. destruct (zlist_eqb me (ss_name x)) eqn:E; [apply zlist_eqb_eq in E; exfalso; apply (N x); [now left|congruence]|]. rewrite andb_false_r. destruct (is_update x); apply IH; intros; apply N; now right.
Qed.
Lemma top_none l : (forall x, In x l -> ss_name x <> me) -> top (claims l) me session = -1.
Proof.
  intro N. destruct (top_wit (claims l) me session) as [W|W]; [exact W|]. exfalso. unfold claims in W. apply in_map_iff in W. destruct W as (x & Ex & W). apply filter_In in W. apply (N x (proj1 W)). unfold triple in Ex. congruence.
Qed.
(** An object that receives its first message, one that says which number it had reached in this
    session, takes the following number and announces this under the digest of the message. *)
Theorem C78_returning : forall l n k m1 q info m2, let m := m1 ++ SState me 0 session q info :: m2 in
  Forall input_ok l -> Forall state_ok m -> (forall x, In x (m1 ++ m2) -> ss_name x <> me) -> 0 <= session < 2 ^ 64 -> q + 1 < 2 ^ 64 ->
  let c := after l in c_enabled c = true -> getSequenceNo c = -1 -> root_of c = s00 ->
  let i := Input (EData n k (Some m)) [] [] in let c' := after (l ++ [i]) in collision_free sha c' ->
  snd (step c i) = Ok tt /\ getSequenceNo c' = q + 1 /\ (forall p s, getProducerSequenceNo c' p s = top (claims m ++ [(me, session, q + 1)]) p s) /\
  c_outs c' = [Initialized; Add (t_root (run sha (claims m))) [SState me 0 session (q + 1) []]; Received (filter (fun x => ss_type x =? 0) m) true; Express [root_of c'] Sync].
Proof.
  intros l n k m1 q info m2 m F Fm Nm S Lq c En Q R i c' Cf. destruct (after_core sha Hs me session He l F) as (cs & HG & _). fold c in HG. pose proof (claimed_ok _ (g_ok _ _ _ HG)) as Fc.
  assert (N1 : forall x, In x m1 -> ss_name x <> me) by (intros x I; apply Nm, in_or_app; now left). assert (N2 : forall x, In x m2 -> ss_name x <> me) by (intros x I; apply Nm, in_or_app; now right).
  assert (Q0 : 0 <= q). { rewrite Forall_forall in Fm. destruct (Fm (SState me 0 session q info)) as (_ & A & _); [unfold m; apply in_or_app; right; now left|]. cbn in A. lia. }
  assert (Em : t_nodes (run sha (claimed cs)) = []) by (apply (root_00 sha Hh _ Fc); rewrite <- (g_tree _ _ _ HG); exact R).
  assert (T0 : forall p s, top (claimed cs) p s = -1) by (intros; now apply (empty_tree sha)).
  assert (Lg : map fst (logs sha cs) = [s00]).
  { pose proof (g_ok _ _ _ HG) as Fo. clear - T0 Fo Hs Hh. induction cs as [|x cs IH] using rev_ind; [reflexivity|]. apply Forall_app in Fo. destruct Fo as [Fo Fx]. rewrite logs_snoc. cbv zeta.
    assert (T1 : forall p s, top (claimed cs) p s = -1 /\ top (claimed cs ++ claims x) p s = -1) by (intros p s; specialize (T0 p s); rewrite claimed_snoc in T0; split; [|exact T0]; rewrite top_app in T0; pose proof (top_ge (claimed cs) p s); lia).
    rewrite (run_same sha Hs (claimed cs ++ claims x) []); [|apply Forall_app; split; [apply claimed_ok, Fo|apply claims_ok; now inversion Fx]|constructor|intros p s; apply T1]. assert (I : log_find (logs sha cs) (t_root (run sha [])) =? -1 = false).
    { destruct (log_find (logs sha cs) (t_root (run sha [])) =? -1) eqn:E; [|reflexivity]. apply log_find_none in E. exfalso. apply E. rewrite IH; [now left|intros; apply T1|exact Fo]. }
    rewrite I. apply IH; [intros; apply T1|exact Fo]. }
  set (c0 := begin i c). assert (HG0 : G sha cs c0) by (destruct HG; constructor; assumption). destruct (upd_spec sha Hs me cs m c0 HG0 Fm) as [Eu HG1]. cbv zeta in Eu. pose proof (claimed_ok _ (g_ok _ _ _ HG1)) as Fc1.
  assert (Tm : top (claims m) me session = q).
  { unfold m, claims. rewrite filter_app, map_app. fold (claims m1). cbn [filter ss_type]. change (0 =? 0) with true. cbv iota. cbn [map]. fold (claims m2). change (top (claims m1 ++ [(me, session, q)] ++ claims m2) me session = q).
    rewrite !top_app, !top_none by assumption. cbn [top fst snd]. destruct (prod_dec (me, session) (me, session)); [|congruence]. lia. }
  assert (Nt : top (claimed (cs ++ [m])) me session = q) by (rewrite claimed_snoc, top_app, T0, Tm; lia).
  assert (Sq : seq_after me (claimed cs) m (-1) = q).
  { unfold m. rewrite seq_after_app, (seq_after_none m1 N1). cbn [seq_after]. change (is_update (SState me 0 session q info)) with true. cbv iota. rewrite (seq_after_none m2 N2). cbn [ss_name ss_session ss_seq]. rewrite top_app, T0, (top_none m1 N1), (proj2 (zlist_eqb_eq me me) eq_refl), andb_true_r. destruct (Z.max (-1) (-1) <? q) eqn:E; lia. }
  assert (Ru : run sha (claimed (cs ++ [m])) = run sha (claims m)) by (apply (run_same sha Hs); [exact Fc1|apply claims_ok, Fm|intros p s; rewrite claimed_snoc, top_app, T0; pose proof (top_ge (claims m) p s); lia]).
  unfold c' in *. rewrite after_snoc in *. fold c in Cf |- *.
  set (x := SState me UPDATE session (q + 1) []). assert (Fx : Forall state_ok [x]) by (constructor; [split; [exact He|split; cbn; lia]|constructor]).
  set (c3 := fst (upd sha me m c0)). assert (HG3 : G sha (cs ++ [m]) c3) by exact HG1.
  destruct (upd_spec sha Hs me (cs ++ [m]) [x] c3 HG3 Fx) as [Eu3 HG4]. cbv zeta in Eu3. pose proof (claimed_ok _ (g_ok _ _ _ HG4)) as Fc4.
  assert (K4 : forall p s, top (claimed ((cs ++ [m]) ++ [[x]])) p s = top (claims m ++ [(me, session, q + 1)]) p s) by (intros p s; rewrite !claimed_snoc, !top_app, T0; change (claims [x]) with [(me, session, q + 1)]; pose proof (top_ge (claims m) p s); lia).
  set (b := log_find _ _ =? -1) in Eu3.
  assert (Sc3 : c_script c3 = []) by (unfold c3; rewrite Eu; reflexivity). set (c4 := fst (upd sha me [x] c3)) in *. assert (Sc4 : c_script c4 = []) by (unfold c4; rewrite Eu3; exact Sc3).
  assert (T4c : c_tree c4 = run sha (claimed ((cs ++ [m]) ++ [[x]]))) by exact (g_tree _ _ _ HG4).
  assert (Q4 : c_seq c4 = q + 1).
  { unfold c4. rewrite Eu3. cbn [fst c_seq seq_after]. change (is_update x) with true. cbv iota. change (ss_name x) with me. change (ss_session x) with session. change (ss_seq x) with (q + 1). rewrite Nt, (proj2 (zlist_eqb_eq me me) eq_refl), andb_true_r. replace (q <? q + 1) with true by lia. reflexivity. }
  assert (Sg4 : c_signs c4 = []) by (unfold c4; rewrite Eu3; cbn [fst c_signs]; unfold c3; rewrite Eu; reflexivity).
  set (c5 := if b then with_out Initialized c4 else c4).
  assert (E : step c i = tail sha me session (Received (filter is_update m) true) (with_out (Add (t_root (run sha (claims m))) [x]) c5)).
  { unfold ChronoModel.step. cbn [i i_event act_of]. fold i. fold c0. rewrite on_data_eq by exact En. change (t_root (c_tree c0)) with (root_of c). rewrite R. change (zlist_eqb s00 s00) with true. cbv iota.
    assert (Ei : initial_data sha me session m c0 = (with_out (Add (t_root (run sha (claims m))) [x]) c5, Ok tt)).
    { unfold initial_data, bind at 1. assert (Ec3 : exists r0, upd sha me m c0 = (c3, Ok r0)) by (unfold c3; rewrite Eu; eexists; reflexivity). destruct Ec3 as [r0 Ec3]. rewrite Ec3. unfold bind at 1, root, get at 1. unfold bind at 1. unfold m at 1. rewrite (old_comer_app m1 _ c3 N1). cbn [old_comer ss_name ss_session ss_seq].
      rewrite (proj2 (zlist_eqb_eq me me) eq_refl), Z.eqb_refl. cbn [andb]. unfold bind at 1, bind at 1, lift at 1. unfold mk_state at 1. replace (u64 (q + 1) && u64 session) with true by (unfold u64; lia). fold x. unfold bind at 1.
      assert (Ec4 : upd sha me [x] c3 = (c4, Ok b)) by (unfold c4; rewrite Eu3; reflexivity). rewrite Ec4.
      assert (Ec5 : (if b then callback sha me session Initialized else ret tt) c4 = (c5, Ok tt)) by (unfold c5; destruct b; [apply callback_plain; exact Sc4|reflexivity]). rewrite Ec5. rewrite (old_comer_none sha me session m2 c5 N2).
      unfold bind at 1, get at 1. unfold bind at 1, lift at 1. assert (Q5 : c_seq c5 = q + 1) by (unfold c5; destruct b; exact Q4). rewrite Q5. replace (0 <=? q + 1) with true by lia. unfold mk_state at 1. replace (u64 (q + 1) && u64 session) with true by (unfold u64; lia). fold x.
      assert (Sg5 : c_signs c5 = []) by (unfold c5; destruct b; exact Sg4).
      unfold bind at 1, broadcast, bind at 1, sign. rewrite Sg5. unfold emit at 1, bind at 1, get at 1. 
      assert (Er : t_root (c_tree c3) = t_root (run sha (claims m))) by (rewrite (g_tree _ _ _ HG3), Ru; reflexivity).
      assert (T5 : c_tree c5 = run sha (claimed ((cs ++ [m]) ++ [[x]]))) by (unfold c5; destruct b; exact T4c).
      cbn [c_tree]. rewrite T5, find_run by exact Fc4. rewrite K4, top_app, Tm. cbn [top fst snd]. destruct (prod_dec (me, session) (me, session)); [|congruence].
      match goal with |- (if ?u then _ else _) _ = _ => replace u with false by lia end. rewrite Er. unfold with_out. rewrite <- ?T5. clear - Sg5; destruct c5 as [u1 u2 u3 u4 u5 u6 u7]; cbn [c_signs] in Sg5; subst u7; reflexivity. }
    rewrite Ei. reflexivity. }
  assert (Sc6 : c_script (with_out (Add (t_root (run sha (claims m))) [x]) c5) = []) by (unfold c5; destruct b; exact Sc4).
  assert (T4 : c_tree (fst (step c i)) = run sha (claimed ((cs ++ [m]) ++ [[x]]))).
  { rewrite E, tail_plain by exact Sc6. cbn [fst c_tree with_out]. rewrite <- T4c. unfold c5. destruct b; reflexivity. }
  assert (K' : forall p s, getProducerSequenceNo (fst (step c i)) p s = top (claims m ++ [(me, session, q + 1)]) p s) by (intros p s; rewrite gps_known, T4, known_run by exact Fc4; apply K4).
  assert (Hb : b = true).
  { unfold b. apply log_find_none. intro I. assert (J : t_root (run sha (claimed ((cs ++ [m]) ++ [[x]]))) = s00 \/ t_root (run sha (claimed ((cs ++ [m]) ++ [[x]]))) = t_root (run sha (claims m))).
    { rewrite logs_snoc in I at 1. cbv zeta in I. rewrite <- claimed_snoc, Ru in I. destruct (log_find (logs sha cs) (t_root (run sha (claims m))) =? -1); [rewrite map_app in I; apply in_app_or in I; destruct I as [I|[I|[]]]; [|right; symmetry; exact I]|]; rewrite Lg in I; destruct I as [I|[]]; left; symmetry; exact I. }
    assert (T1 : top (claimed ((cs ++ [m]) ++ [[x]])) me session = q + 1). { rewrite K4, top_app, Tm. cbn [top fst snd]. destruct (prod_dec (me, session) (me, session)); [|congruence]. lia. }
    destruct J as [J|J].
    - apply (root_00 sha Hh _ Fc4) in J. rewrite (empty_tree sha _ _ _ Fc4 J) in T1. lia.
    - apply Cf in J; [|apply Forall_forall; intros [[p s] q0] Hu; split; [rewrite Forall_forall in Fc4; apply (Fc4 _ Hu)|cbn [fst snd]; rewrite K', <- K4; apply top_in in Hu as Hv; rewrite Forall_forall in Fc4; pose proof (proj2 (Fc4 _ Hu)) as Z0; cbn [snd] in Z0; lia]|
        apply Forall_forall; intros [[p s] q0] Hu; pose proof (claims_ok _ Fm) as Fcm; rewrite Forall_forall in Fcm; split; [apply (Fcm _ Hu)|cbn [fst snd]; rewrite K', top_app; apply top_in in Hu as Hv; pose proof (proj2 (Fcm _ Hu)) as Z0; cbn [snd] in Z0; lia]].
      pose proof (known_run sha _ me session Fc4) as X. rewrite J, T1, known_run in X by (apply claims_ok, Fm). lia. }
  assert (E5 : c5 = with_out Initialized c4) by (unfold c5; now rewrite Hb). rewrite E5 in E, Sc6. rewrite tail_plain in E by exact Sc6. split; [rewrite E; reflexivity|]. split; [|split; [exact K'|]].
  - rewrite E. unfold getSequenceNo. cbn [fst c_seq with_out]. exact Q4.
  - rewrite E. cbn [fst c_outs with_out c_tree]. unfold c4. rewrite Eu3. cbn [fst c_outs c_tree]. unfold c3. rewrite Eu. reflexivity.
Qed.
End Node.

Section Two.
Variable sha : bytes -> bytes.
Hypothesis Hh : hash_fn sha.
Let Hs : sha_fn sha := proj1 Hh.
Variables (ma : str) (sa : Z) (mb : str) (sb : Z).
Hypothesis Ha : encodable ma.
Hypothesis Hb : encodable mb.
Notation after_a := (after sha ma sa).
Notation after_b := (after sha mb sb).
Notation root_of c := (t_root (c_tree c)).

(** Two objects that have each received the other's recovery reply, one after the other, are in the
    same state: the highest numbers of both. *)
Theorem C78_converge : forall la lb na nb m f m' f' na' nb', Forall input_ok la -> Forall input_ok lb ->
  c_enabled (after_a la) = true -> c_enabled (after_b lb) = true -> root_of (after_a la) <> s00 -> root_of (after_b lb) <> s00 ->
  recovers (root_of (after_a la)) na -> c_outs (fst (step sha ma sa (after_a la) (interest na))) = [Put na m f] ->
  let lb' := lb ++ [data_for nb m] in
  recovers (root_of (after_b lb')) nb' -> c_outs (fst (step sha mb sb (after_b lb') (interest nb'))) = [Put nb' m' f'] ->
  let la' := la ++ [data_for na' m'] in
  (forall p s, getProducerSequenceNo (after_a la') p s = Z.max (getProducerSequenceNo (after_a la) p s) (getProducerSequenceNo (after_b lb) p s)) /\
  (forall p s, getProducerSequenceNo (after_b lb') p s = getProducerSequenceNo (after_a la') p s) /\ root_of (after_a la') = root_of (after_b lb').
Proof.
  intros la lb na nb m f m' f' na' nb' Fa Fb Ea Eb Ra Rb Ra' Om lb' Rb' Om' la'.
  destruct (C78_recovery sha Hh ma sa Ha la [] na) as (m0 & f0 & O & _ & Fm & _ & Tm & _); rewrite ?app_nil_r in *; try assumption. rewrite Om in O. injection O as <- <-.
  destruct (C78_join sha Hh mb sb Hb lb nb m Fb Fm Eb Rb) as (Kb & Eb' & _). cbv zeta in *. fold lb' in Kb, Eb'.
  assert (Fb' : Forall input_ok lb') by (apply Forall_app; split; [exact Fb|constructor; [exact Fm|constructor]]).
  assert (Rb2 : root_of (after_b lb') <> s00).
  { destruct (after_core sha Hs mb sb Hb lb Fb) as (cs & HG & _). destruct (after_core sha Hs mb sb Hb lb' Fb') as (cs' & HG' & _). pose proof (claimed_ok _ (g_ok _ _ _ HG)) as Fc. pose proof (claimed_ok _ (g_ok _ _ _ HG')) as Fc'. rewrite (g_tree _ _ _ HG) in Rb. rewrite (g_tree _ _ _ HG'). intro X. apply (root_00 sha Hh _ Fc') in X. apply Rb. apply (root_00 sha Hh _ Fc).
    destruct (t_nodes (run sha (claimed cs))) as [|n r] eqn:En; [reflexivity|]. exfalso. destruct (nodes_top sha _ n Fc) as [N1 N2]; [rewrite En; now left|]. specialize (Kb (n_prefix n) (n_session n)). rewrite !gps_known, (g_tree _ _ _ HG), (g_tree _ _ _ HG'), !known_run in Kb by assumption. rewrite (empty_tree sha _ _ _ Fc' X) in Kb.
    rewrite Forall_forall in Fc. pose proof (proj2 (Fc _ N2)) as Z0. cbn [snd] in Z0. lia. }
  destruct (C78_recovery sha Hh mb sb Hb lb' [] nb') as (m1 & f1 & O' & _ & Fm' & _ & Tm' & _); rewrite ?app_nil_r in *; try assumption. rewrite Om' in O'. injection O' as <- <-.
  destruct (C78_join sha Hh ma sa Ha la na' m' Fa Fm' Ea Ra) as (Ka & _ & _). cbv zeta in *. fold la' in Ka.
  assert (K1 : forall p s, getProducerSequenceNo (after_a la') p s = Z.max (getProducerSequenceNo (after_a la) p s) (getProducerSequenceNo (after_b lb) p s)) by (intros p s; rewrite Ka, Tm', Kb, Tm; lia).
  assert (K2 : forall p s, getProducerSequenceNo (after_b lb') p s = getProducerSequenceNo (after_a la') p s) by (intros p s; rewrite K1, Kb, Tm; lia).
  split; [exact K1|]. split; [exact K2|]. apply (C78_root sha Hh ma sa Ha mb sb la' lb' Hb); [|exact Fb'|intros; symmetry; apply K2]. apply Forall_app. split; [exact Fa|constructor; [exact Fm'|constructor]].
Qed.

(** ** The reply to a sync Interest *)
Lemma logged_split g a d l b : NoDup (map fst g) -> g = a ++ (d, l) :: b -> logged_after g d = map snd b.
Proof.
  intros N ->. induction a as [|e a IH]; cbn [app logged_after fst].
  - destruct (list_eq_dec Z.eq_dec d d); [reflexivity|congruence].
  - cbn [app map] in N. inversion N as [|? ? N1 N2]; subst. destruct (list_eq_dec Z.eq_dec (fst e) d) as [E|E]; [|auto]. exfalso. apply N1. rewrite E, map_app. apply in_or_app. right. now left.
Qed.
Lemma claimed_concat l : claimed l = claims (concat l).
Proof. induction l as [|x l IH]; [reflexivity|]. cbn [claimed flat_map concat]. fold (claimed l). rewrite IH. unfold claims. rewrite filter_app, map_app. reflexivity. Qed.
(** An Interest for the digest of an earlier state is answered, if the state has changed: each prefix at
    most once, no number above what is known, and every prefix of which a number has changed since. *)
Theorem C78_sync_reply : forall l1 l2, Forall input_ok (l1 ++ l2) -> let a1 := after_a l1 in let a := after_a (l1 ++ l2) in let d := root_of a1 in
  c_enabled a = true -> d <> s00 -> d <> root_of a -> collision_free sha a ->
  exists m, c_outs (fst (step sha ma sa a (interest [d]))) = [Keep [d]; Put [d] m None] /\ Forall state_ok m /\ NoDup (map ss_name m) /\
    (forall x, In x m -> ss_type x = 0 /\ ss_seq x <= getProducerSequenceNo a (ss_name x) (ss_session x)) /\
    (forall p s, getProducerSequenceNo a p s <> getProducerSequenceNo a1 p s -> In p (map ss_name m)) /\
    (tidy (claims (concat (logged_after (c_log a) d))) -> forall p s, getProducerSequenceNo a p s = Z.max (getProducerSequenceNo a1 p s) (top (claims m) p s)).
Proof.
  intros l1 l2 F a1 a d En N0 Nr Cf. pose proof F as F0. apply Forall_app in F. destruct F as [F F']. destruct (after_core sha Hs ma sa Ha l1 F) as (cs & HG & _). fold a1 in HG. destruct (after_more sha Hs ma sa Ha l1 l2 cs F' HG) as (cs' & HG'). fold a in HG'.
  pose proof (claimed_ok _ (g_ok _ _ _ HG)) as Fc. pose proof (claimed_ok _ (g_ok _ _ _ HG')) as Fc'.
  assert (Nc : no_collision sha (cs ++ cs')).
  { intros us us' Fu Fu' R. assert (B : forall us, Forall (fun u => claim_ok u /\ snd u <= top (claimed (cs ++ cs')) (fst (fst u)) (snd (fst u))) us -> Forall (below a) us).
    { intros us0 Fu0. eapply Forall_impl; [|exact Fu0]. cbv beta. intros u [[A B] C]. split; [exact A|]. rewrite gps_known, (g_tree _ _ _ HG'), known_run by exact Fc'. lia. }
    apply Cf; auto. }
  destruct (C78_digests sha Hh ma sa Ha l1 l2 F0) as [Nd Il]. fold a a1 d in Nd, Il. rewrite (g_log _ _ _ HG') in Nd, Il.
  assert (El : (log_find (logs sha (cs ++ cs')) d =? -1) = false) by (destruct (log_find (logs sha (cs ++ cs')) d =? -1) eqn:E; [apply log_find_none in E; contradiction|reflexivity]).
  destruct (log_at sha _ _ El) as (g1 & l & g2 & Eg & Ei). pose proof (logged_split _ _ _ _ _ Nd Eg) as Ela. rewrite (g_log _ _ _ HG'), Ela.
  assert (Ed : d = root_of a1) by reflexivity. rewrite (g_tree _ _ _ HG) in Ed. pose proof Eg as Eg'. rewrite Ed in Eg'. pose proof (logs_after sha cs cs' g1 l g2 (g_ok _ _ _ HG') Nc Eg') as Ta.
  assert (Lo : forall u, In u (claims (concat (map snd g2))) -> In u (claimed (cs ++ cs'))).
  { intros u Hu. rewrite <- claimed_concat in Hu. unfold claimed in Hu. apply in_flat_map in Hu. destruct Hu as (x & Hx & Hu). destruct (logs_split sha _ _ _ _ _ Eg) as (k1 & k2 & Ek & _ & I). rewrite Ek, claimed_app. apply in_or_app. right. unfold claimed. apply in_flat_map. exists x. auto. }
  set (mm := merge_all (c_tree a) (concat (map snd g2)) []). destruct (merge_all_spec (c_tree a) (concat (map snd g2))) as (M1 & M2 & M3). cbv zeta in *. fold mm in M1, M2, M3.
  assert (It : forall u, In u (claims (concat (map snd g2))) -> in_tree (c_tree a) u = true).
  { intros [[p s] q] Hu. apply Lo in Hu. unfold in_tree. cbn [fst snd]. rewrite (g_tree _ _ _ HG'), find_run by exact Fc'. pose proof (top_in _ _ _ _ Hu). rewrite Forall_forall in Fc'. pose proof (proj2 (Fc' _ Hu)) as Z0. cbn [snd] in Z0. lia. }
  assert (Ga : forall p s, getProducerSequenceNo a p s = top (claimed (cs ++ cs')) p s) by (intros; rewrite gps_known, (g_tree _ _ _ HG'), known_run by exact Fc'; reflexivity).
  assert (G1 : forall p s, getProducerSequenceNo a1 p s = top (claimed cs) p s) by (intros; rewrite gps_known, (g_tree _ _ _ HG), known_run by exact Fc; reflexivity).
  assert (Nm : map ss_name (map mk mm) = map fst mm) by (rewrite map_map; reflexivity).
  assert (Ne : mm <> []).
  { intro X. apply Nr. rewrite Ed, (g_tree _ _ _ HG'). f_equal. apply run_same; [exact Hs|exact Fc|exact Fc'|]. intros p s. rewrite Ta, (claimed_concat (map snd g2)). destruct (top_wit (claims (concat (map snd g2))) p s) as [W|W]; [rewrite W; pose proof (top_ge (claimed cs) p s); lia|]. exfalso. pose proof (M3 _ _ _ W (It _ W)) as Y. rewrite X in Y. destruct Y. }
  set (c1 := Chrono (c_log a) (c_tree a) (c_seq a) (c_enabled a) [Keep [d]] [] []). assert (HG1 : G sha (cs ++ cs') c1) by (destruct HG'; constructor; assumption).
  destruct (sync_reply sha (cs ++ cs') c1 g1 l g2 d HG1 eq_refl Eg) as [Es Fm]. cbv zeta in Es, Fm. assert (Emm : merge_all (c_tree c1) (concat (map snd g2)) [] = mm) by reflexivity. rewrite Emm in Es, Fm. clear Emm.
  assert (Elf : log_find (c_log a) d = zlen g1) by (rewrite (g_log _ _ _ HG'); exact Ei). assert (El' : (zlen g1 =? -1) = false) by (pose proof (zlen_nonneg _ g1); lia).
  exists (map mk mm). split; [|split; [exact Fm|split; [rewrite Nm; exact M1|split; [|split]]]].
  - unfold step, interest. cbn [i_event act_of]. unfold on_interest, bind at 1, get at 1. cbn [begin c_enabled]. rewrite En. unfold bind at 1, lift. cbv zeta. change (zlen [d] =? 2) with false. cbn [orb].
    destruct (zlist_eqb d s00) eqn:E; [apply zlist_eqb_eq in E; contradiction|]. unfold bind at 1, emit at 1. unfold bind at 1, root, get at 1. cbn [begin c_tree i_calls i_signs c_log c_seq c_enabled c_outs c_script c_signs app]. destruct (zlist_eqb d (root_of a)) eqn:E2; [apply zlist_eqb_eq in E2; contradiction|]. cbn [negb].
    unfold bind at 1, get at 1. cbn [c_log]. rewrite Elf, El'. fold c1. rewrite Es. destruct mm as [|e r]; [congruence|]. reflexivity.
  - intros x Hx. apply in_map_iff in Hx. destruct Hx as (e & <- & Hx). split; [reflexivity|]. destruct (M2 e Hx) as [M2a _]. apply Lo in M2a. rewrite Ga. apply top_in in M2a. exact M2a.
  - intros p s Nq. rewrite Ga, G1, Ta in Nq. rewrite (claimed_concat (map snd g2)) in Nq. rewrite Nm. destruct (top_wit (claims (concat (map snd g2))) p s) as [W|W]; [pose proof (top_ge (claimed cs) p s); lia|]. apply (M3 _ _ _ W), It, W.
  - intros Ti p s. rewrite Ga, G1, Ta, (claimed_concat (map snd g2)), claims_mk. f_equal. apply Z.le_antisymm.
    + destruct (top_wit (claims (concat (map snd g2))) p s) as [W|W]; [rewrite W; apply top_ge|]. pose proof (M3 _ _ _ W (It _ W)) as Y. apply in_map_iff in Y. destruct Y as (e & Ee & Y).
      destruct (merge_all_tidy (c_tree a) _ Ti e Y) with (s := s) (q := top (claims (concat (map snd g2))) p s) as [S1 S2]; [intros s0 q0 J; apply It, J|rewrite Ee; exact W|]. apply Z.le_trans with (fst (snd e)); [exact S2|]. apply top_in. apply in_map_iff. exists e. split; [|exact Y]. unfold m_triple. congruence.
    + apply top_le; [apply top_ge|]. intros q J. apply in_map_iff in J. destruct J as (e & Ee & J). apply M2 in J. destruct J as [J _]. rewrite Ee in J. now apply top_in.
Qed.
(** If what was logged since is in order, the one who asked is then in the same state. *)
Theorem C78_catch_up : forall l1 l2 lb m, Forall input_ok (l1 ++ l2) -> Forall input_ok lb -> let a1 := after_a l1 in let a := after_a (l1 ++ l2) in let b := after_b lb in
  c_enabled a = true -> c_enabled b = true -> root_of a1 <> s00 -> root_of a1 <> root_of a -> collision_free sha a -> tidy (claims (concat (logged_after (c_log a) (root_of a1)))) ->
  (forall p s, getProducerSequenceNo b p s = getProducerSequenceNo a1 p s) ->
  c_outs (fst (step sha ma sa a (interest [root_of b]))) = [Keep [root_of b]; Put [root_of b] m None] ->
  let b' := after_b (lb ++ [data_for [root_of b] m]) in
  (forall p s, getProducerSequenceNo b' p s = getProducerSequenceNo a p s) /\ root_of b' = root_of a.
Proof.
  intros l1 l2 lb m F Fb a1 a b Ea Eb N0 Nr Cf Ti Eq Om b'. pose proof F as F0. apply Forall_app in F. destruct F as [F F'].
  destruct (C78_root sha Hh mb sb Hb ma sa lb l1 Ha Fb F Eq) as [Er _]. fold b a1 in Er. rewrite Er in *.
  destruct (C78_sync_reply l1 l2 F0 Ea N0 Nr Cf) as (m0 & O & Fm & _ & _ & _ & T). cbv zeta in O, T. fold a1 a in O, T. rewrite Om in O. injection O as <-. specialize (T Ti).
  destruct (C78_join sha Hh mb sb Hb lb [root_of a1] m Fb Fm Eb) as (K & _ & _); [fold b; rewrite Er; exact N0|]. cbv zeta in K. assert (Eb' : b' = after_b (lb ++ [data_for [root_of a1] m])) by (unfold b'; rewrite Er; reflexivity). clearbody b'. subst b'.
  match goal with |- ?A /\ _ => assert (K' : A) end; [intros p s; rewrite K; fold b; rewrite Eq; symmetry; apply T|]. split; [exact K'|].
  apply (C78_root sha Hh mb sb Hb ma sa (lb ++ [data_for [root_of a1] m]) (l1 ++ l2) Ha); [|exact F0|exact K']. apply Forall_app. split; [exact Fb|constructor; [exact Fm|constructor]].
Qed.
End Two.

(** ** A group *)
Section Group.
Variable sha : bytes -> bytes.
Hypothesis Hh : hash_fn sha.
Variable nodes : list (str * Z).
Hypothesis Hd : distinct nodes.
Notation at_node := (at_node sha nodes).
(** In a group with distinct prefixes, a node knows of no producer but the nodes, of none a number above
    the one that this node has given itself, and no message says otherwise. *)
Theorem C78_no_overclaim : forall h m, group sha nodes h m -> not_full sha nodes h ->
  (forall k p s, In (p, s) (getProducerPrefixes (at_node k h)) -> exists n, nth_error nodes n = Some (p, s)) /\
  (forall k n p s, nth_error nodes n = Some (p, s) -> getProducerSequenceNo (at_node k h) p s <= getProducerSequenceNo (at_node n h) p s <= getSequenceNo (at_node n h)) /\
  (forall l x, In l m -> In x l -> ss_type x = 0 /\ exists n, nth_error nodes n = Some (ss_name x, ss_session x) /\ 0 <= ss_seq x <= getProducerSequenceNo (at_node n h) (ss_name x) (ss_session x)).
Proof.
  intros h m Hg Nf. destruct (group_ok sha Hh nodes Hd false h m ltac:(discriminate) Hg Nf ltac:(discriminate)) as [Io Im It]. split; [|split].
  - intros k p s J. assert (N : known (c_tree (at_node k h)) p s <> -1).
    { destruct (nth_error nodes k) as [[p' s']|] eqn:E.
      - destruct (Io k p' s' E) as [[cs HG _ _ _ _ _] _]. pose proof (claimed_ok _ (g_ok _ _ _ HG)) as Fc. unfold getProducerPrefixes in J. rewrite (g_tree _ _ _ HG) in *. rewrite known_run by exact Fc. apply in_map_iff in J. destruct J as (nd & En & J). injection En as <- <-. destruct (nodes_top sha _ nd Fc J) as [<- Y]. rewrite Forall_forall in Fc. pose proof (proj2 (Fc _ Y)) as Z0. cbn [snd] in Z0. lia.
      - unfold ChronoSpec.at_node in J. rewrite E in J. destruct J. }
    destruct (It k p s N) as (n & E & _). eauto.
  - intros k n p s E. destruct (Io n p s E) as [O _]. split; [|apply (o_seq _ _ _ _ _ O)]. rewrite !gps_known. destruct (Z.eq_dec (known (c_tree (at_node k h)) p s) (-1)) as [X|X].
    + rewrite X. destruct O as [cs HG _ _ _ _ _]. rewrite (g_tree _ _ _ HG), known_run by (apply claimed_ok, (g_ok _ _ _ HG)). apply top_ge.
    + destruct (It k p s X) as (n' & E' & L). destruct (node_name nodes Hd _ _ _ _ _ E E') as [<- _]. exact L.
  - intros l x Hl Hx. destruct (Im l x Hl Hx) as (A & (_ & B & _) & (n & E & L)). split; [exact A|]. exists n. split; [exact E|]. rewrite gps_known. lia.
Qed.
(** The number of a node never goes back, and every call of publishNextSequenceNo that does not raise
    takes the next one, announces it under the digest of the state before and then asks for changes of
    the state after. If it raises, nothing is announced or the new root digest is one of an earlier state. *)
Theorem C78_publish : forall h m n p s i info, group sha nodes h m -> not_full sha nodes h -> nth_error nodes n = Some (p, s) -> i_event i = EPublish info ->
  let c := at_node n h in let c' := at_node n (h ++ [(n, i)]) in let r := snd (step sha p s c i) in
  getSequenceNo c' = getSequenceNo c + 1 /\
  (r = Ok tt -> getProducerSequenceNo c' p s = getSequenceNo c + 1 /\ c_outs c' = [Add (t_root (c_tree c)) [SState p 0 s (getSequenceNo c + 1) info]; Express [t_root (c_tree c')] Sync]) /\
  (r <> Ok tt -> c_outs c' = [] /\ c_tree c' = c_tree c \/ In (t_root (c_tree c')) (map fst (c_log c))).
Proof.
  intros h m n p s i info Hg Nf En Ei c c' r. destruct (group_ok sha Hh nodes Hd false h m ltac:(discriminate) Hg Nf ltac:(discriminate)) as [Io _ _]. unfold c' in *. rewrite (at_same sha nodes n h i p s En) in *. fold c. subst r.
  destruct (Io n p s En) as [[cs HG P S1 S2 S3 S4] _]. fold c in HG, S1, S2, S3. assert (O : own sha p s (-1) (begin i c)) by (exists cs; cbn [begin c_tree c_seq c_outs]; try assumption; [destruct HG; constructor; assumption|intros ? ? []]).
  destruct (publish_own sha Hh p s (node_enc nodes Hd n p s En) (-1) (begin i c) info O) as (_ & B & D). unfold step. rewrite Ei. cbn [act_of]. unfold getSequenceNo. cbn [begin c_seq c_outs c_tree c_log app] in *. split; [exact B|]. split.
  - intro R. destruct D as [(_ & _ & D & _)|(K & o & E & [[_ ->]|[D _]])]; [contradiction| |rewrite R in D; discriminate D]. split; [exact K|exact E].
  - intro R. destruct D as [(E1 & E2 & _)|(_ & o & _ & [[D _]|(_ & _ & D)])]; [left; auto|contradiction|right; exact D].
Qed.
Theorem C78_number_monotone : forall h m n i, group sha nodes (h ++ [(n, i)]) m -> not_full sha nodes h -> getSequenceNo (at_node n h) <= getSequenceNo (at_node n (h ++ [(n, i)])).
Proof.
  intros h m n i Hg Nf. inversion Hg as [|h0 m0 n0 p s i0 Hg' En Hi E1 E2]; subst; [destruct h; discriminate|]. apply app_inj_tail in E1. destruct E1 as [-> E1]. injection E1 as -> ->.
  destruct (group_ok sha Hh nodes Hd false h m0 ltac:(discriminate) Hg' Nf ltac:(discriminate)) as [Io Im It]. rewrite (at_same sha nodes n h i p s En).
  assert (Hio : input_ok i). { unfold input_ok. destruct (i_event i) as [| | |? ? [c|]| |]; auto. apply Forall_forall. intros x Hx. apply (Im c x Hi Hx). }
  assert (Mo : match i_event i with EData _ _ (Some l) => modest p s (at_node n h) l | _ => True end).
  { destruct (i_event i) as [| | |? ? [c|]| |]; auto. intros x Hx Ex. destruct (Im c x Hi Hx) as (_ & _ & (n' & E' & L)). rewrite Ex in *. destruct (node_name nodes Hd _ _ _ _ _ En E') as [X1 X2]. subst n'. rewrite <- X2 in L. split; [congruence|exact L]. }
  assert (Fl : c_seq (at_node n h) < 2 ^ 64 - 1) by (apply (Nf h [] n); now rewrite app_nil_r).
  destruct (step_own sha Hh p s (node_enc nodes Hd n p s En) false (at_node n h) i (Io n p s En) Hio Mo Fl ltac:(discriminate)) as [S1 _]. apply (o_ge _ _ _ _ _ S1).
Qed.
(** If no signing fails and the first timeout does not raise, the number of a node is the one that all
    know of at most. *)
Theorem C78_in_step : forall h m n p s, group sha nodes h m -> not_full sha nodes h -> Forall (fun x => 0 <= snd x < 2 ^ 64) nodes ->
  (forall h1 k i h2 p' s', h = h1 ++ (k, i) :: h2 -> nth_error nodes k = Some (p', s') -> Forall (eq true) (i_signs i) /\ ((forall j, i_event i <> ETimeout j Initial) \/ snd (step sha p' s' (at_node k h1) i) = Ok tt)) ->
  nth_error nodes n = Some (p, s) -> getSequenceNo (at_node n h) = getProducerSequenceNo (at_node n h) p s.
Proof.
  intros h m n p s Hg Nf Fn Cl En. assert (Hu : forall k p' s', nth_error nodes k = Some (p', s') -> u64 s' = true). { intros k p' s' E. apply nth_error_In in E. rewrite Forall_forall in Fn. specialize (Fn _ E). cbn [snd] in Fn. unfold u64. lia. }
  destruct (group_ok sha Hh nodes Hd true h m (fun _ => Hu) Hg Nf) as [Io _ _].
  - intros _ h1 k i h2 p' s' E E'. split; [eapply Hu, E'|]. eapply Cl; eassumption.
  - destruct (Io n p s En) as [_ S]. destruct (S eq_refl) as (_ & _ & Q). apply Q. specialize (Nf h [] n ltac:(now rewrite app_nil_r)). unfold getSequenceNo in Nf. lia.
Qed.
End Group.

Print Assumptions C78_others.
Print Assumptions C78_prefixes.
Print Assumptions C78_monotone.
Print Assumptions C78_root.
Print Assumptions C78_listening.
Print Assumptions C78_shutdown.
Print Assumptions C78_same_root.
Print Assumptions C78_unknown_digest.
Print Assumptions C78_digests.
Print Assumptions C78_recovery.
Print Assumptions C78_join.
Print Assumptions C78_first.
Print Assumptions C78_newcomer.
Print Assumptions C78_returning.
Print Assumptions C78_converge.
Print Assumptions C78_sync_reply.
Print Assumptions C78_catch_up.
Print Assumptions C78_no_overclaim.
Print Assumptions C78_publish.
Print Assumptions C78_number_monotone.
Print Assumptions C78_in_step.
