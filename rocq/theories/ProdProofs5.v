(** * Proofs about the producer: histories *)
From Coq Require Import Permutation.
From Verif Require Import Base BaseLemmas NameModel NameSpec NameProofs DictModel DictProofs WireModel WireSpec WireProps BlobModel CalModel CalProps CtlModel CtlSpec EncrModel GmModel GmSpec GmProofs3 ExclModel ExclSpec ProdModel ProdSpec ProdProofs ProdProofs2 ProdProofs3 ProdProofs4.
Local Open Scope res_scope.

Section Producer.
Variable rsa_enc : bytes -> bytes -> Z -> Z -> rsa_out.
Variable aes_enc : bytes -> bytes -> Z -> bytes -> res bytes.
Variables prefix dataType : name.
Variable maxRepeat : Z.
Variable db : dict Z bytes.
Hypothesis Hp : name_ok prefix.
Hypothesis Hd : name_ok dataType.
Notation is_node := (is_node prefix dataType).
Notation all_nodes := (all_nodes prefix dataType).
Notation J := (J rsa_enc aes_enc prefix dataType).
Notation createContentKey := (createContentKey rsa_enc aes_enc prefix dataType).
Notation after := (pafter rsa_enc aes_enc prefix dataType maxRepeat db).
Notation step := (pstep rsa_enc aes_enc prefix dataType maxRepeat).
Notation history := (history rsa_enc aes_enc prefix dataType maxRepeat db).
Notation smooth := (smooth rsa_enc aes_enc prefix dataType maxRepeat db).

Lemma after_snoc l e : after (l ++ [e]) = fst (step (after l) e).
Proof. unfold pafter. rewrite fold_left_app. reflexivity. Qed.
Lemma smooth_snoc l e : smooth (l ++ [e]) -> smooth l /\ (exists x, snd (step (after l) e) = Ok x) /\ quiet (pr_outs (fst (step (after l) e))).
Proof.
  intro H. split; [|apply (H l e []); reflexivity]. intros l1 e1 l2 E. apply (H l1 e1 (l2 ++ [e])). rewrite E, <- app_assoc. reflexivity.
Qed.
Lemma starts_snoc l e s : asks e = [s] -> starts db (l ++ [e]) = starts db l ++ (if in_dec Z.eq_dec (hour_of (s_ts s)) (map fst db ++ map (fun s => hour_of (s_ts s)) (starts db l)) then [] else [s]).
Proof. intro E. unfold starts. rewrite flat_map_app. cbn [flat_map]. rewrite E. cbn [app]. apply creating_snoc. Qed.
Lemma starts_same l e : asks e = [] -> starts db (l ++ [e]) = starts db l.
Proof. intro E. unfold starts. rewrite flat_map_app. cbn [flat_map]. rewrite E. cbn [app]. now rewrite app_nil_r. Qed.

Record Inv (l : list pevent) (o : list kint) (t : list pact) : Prop := {
  v_J : forall cl, (cl = true -> smooth l) -> J cl l (starts db l) (map (fun i => token i) o) t (after l);
  v_own : forall i, In i o -> exists s, In s (starts db l) /\ i_ts i = s_ts s /\ i_call i = s_call s /\ i_wants i = s_wants s;
  v_count : forall i, In i o -> counted (after l) (i_ts i) (i_name i) (timeouts (i_call i) (i_name i) l);
  v_past : forall c n, timeouts c n l <> 0 -> exists s, In s (starts db l) /\ s_call s = c;
  v_track : tracked (after l);
  v_db : pr_db (after l) = db ++ map (fun s => (hour_of (s_ts s), s_key s)) (starts db l);
  v_slots : forall s, In s (flat_map asks l) -> slot_ok (s_ts s)
}.

Lemma inv_start : Inv [] [] [].
Proof.
  assert (St : starts db [] = []) by reflexivity. destruct (start_ok prefix dataType Hp Hd) as (infos & E1 & E2 & E3 & E4 & E5).
  constructor; rewrite ?St.
  - intros cl _. constructor; cbn [pafter fold_left p_start pr_reqs pr_db pr_infos map].
    + constructor.
    + intros ts n [].
    + constructor.
    + intros ts q X. discriminate X.
    + intros s [].
    + intros c X. destruct X. reflexivity.
    + constructor.
    + constructor.
    + intros s [].
    + reflexivity.
    + intros n k X. left. apply (E5 n). rewrite <- E1. exact X.
  - intros i [].
  - intros i [].
  - intros c n X. destruct X. reflexivity.
  - intros ts q X. discriminate X.
  - cbn. now rewrite app_nil_r.
  - intros s [].
Qed.

Lemma timeouts_snoc c n l e : timeouts c n (l ++ [e]) = match e with TimedOut i => if for_node c n i then timeouts c n l + 1 else timeouts c n l | GotKey i _ _ _ => if for_node c n i then 0 else timeouts c n l | _ => timeouts c n l end.
Proof. unfold timeouts. rewrite fold_left_app. reflexivity. Qed.
Lemma timeouts_call c n l e s : asks e = [s] -> timeouts c n (l ++ [e]) = timeouts c n l.
Proof. rewrite timeouts_snoc. destruct e; intro X; try discriminate X; reflexivity. Qed.
Lemma for_node_iff c n i : for_node c n i = true <-> c = i_call i /\ n = i_name i.
Proof. unfold for_node. destruct (ProdSpec.name_dec (i_name i) n) as [E|E]; [|rewrite andb_false_r; split; [discriminate|intros [_ X]; congruence]]. rewrite andb_true_r, Z.eqb_eq. split; intros X; [split; congruence|symmetry; apply X]. Qed.
Lemma inv_call l o t e s : Inv l o t -> asks e = [s] -> slot_ok (s_ts s) -> distinct_calls (l ++ [e]) ->
  (exists rs, fst (step (after l) e) = fst (createContentKey (s_ts s) (s_call s) (s_wants s) (s_key s) rs (pbegin (after l))) /\
     ((exists x, snd (step (after l) e) = Ok x) -> exists n, snd (createContentKey (s_ts s) (s_call s) (s_wants s) (s_key s) rs (pbegin (after l))) = Ok n)) ->
  let a := pr_outs (fst (step (after l) e)) in Inv (l ++ [e]) (o ++ flat_map expressed a) (t ++ a).
Proof.
  intros [VJ VO VC VP VT VD VS] As So Dc (rs & E1 & E2). cbv zeta. assert (Tm : forall c n, timeouts c n (l ++ [e]) = timeouts c n l) by (intros; eapply timeouts_call, As). pose proof (after_snoc l e) as Ea. destruct (create_eq rsa_enc aes_enc prefix dataType (s_ts s) (s_call s) (s_wants s) (s_key s) rs (pbegin (after l)) So) as (n & ch & _ & _ & Ec).
  assert (Sl : forall s0, In s0 (flat_map asks (l ++ [e])) -> slot_ok (s_ts s0)). { intros s0 X. rewrite flat_map_app in X. apply in_app_or in X. destruct X as [X|X]; [now apply VS|]. cbn [flat_map] in X. rewrite As in X. cbn in X. destruct X as [<-|[]]. exact So. }
  assert (Hk : map fst (pr_db (after l)) = map fst db ++ map (fun s => hour_of (s_ts s)) (starts db l)) by (rewrite VD, map_app, map_map; reflexivity).
  pose proof (starts_snoc l e s As) as St. cbn [pbegin pr_db] in Ec. rewrite Hk in Ec.
  destruct (in_dec Z.eq_dec (hour_of (s_ts s)) (map fst db ++ map (fun s0 : start => hour_of (s_ts s0)) (starts db l))) as [Ih|Ih].
  - rewrite Ec in E1. cbn [fst] in E1. rewrite E1 in Ea. rewrite E1. cbn [pbegin pr_outs flat_map]. rewrite !app_nil_r. rewrite app_nil_r in St. constructor; rewrite ?St, ?Ea; try assumption.
    + intros cl Hs. apply J_outs. apply J_more. apply VJ. intro X. specialize (Hs X). apply (smooth_snoc l e Hs).
    + intros i Ii. rewrite Tm. apply VC, Ii.
    + intros c0 n0. rewrite Tm. apply VP.
  - cbv zeta in Ec. cbn [pbegin pr_db pr_infos pr_reqs pr_outs] in Ec. set (p1 := Prod _ _ _ _) in Ec. set (p0 := after l) in *. set (R := key_loop _ _ _ _ _ _ _ _ _ _ p1) in Ec.
    assert (Nc : ~ In (s_call s) (map s_call (starts db l))).
    { intro X. apply in_map_iff in X. destruct X as (s0 & X1 & X2). apply creating_in in X2. unfold distinct_calls in Dc. rewrite flat_map_app, map_app in Dc. cbn [flat_map] in Dc. rewrite As in Dc. cbn [app map] in Dc. apply NoDup_remove_2 in Dc. apply Dc. rewrite app_nil_r. rewrite <- X1. now apply in_map. }
    assert (Nh : ~ In (hour_of (s_ts s)) (map (fun s => hour_of (s_ts s)) (starts db l))) by (intro X; apply Ih, in_or_app; now right).
    assert (Dn : dget Z.eqb (pr_db p0) (hour_of (s_ts s)) = None) by (apply zget_none; rewrite Hk; exact Ih).
    assert (HJ1 : forall cl, (cl = true -> smooth l) -> J cl (l ++ [e]) (starts db l ++ [s]) (map (fun i => token i) o ++ map (pair (s_ts s)) (dkeys (pr_infos p0))) (t ++ pr_outs p1) p1).
    { intros cl Hs. pose proof (VJ cl Hs) as HJ. rewrite (j_nodes _ _ _ _ _ _ _ _ _ _ HJ). cbn [p1 pr_outs]. rewrite app_nil_r. apply J_more. eapply (J_new rsa_enc aes_enc prefix dataType Hp Hd) with (p := p0); [exact HJ|exact Nh|exact Nc| |reflexivity|exact Dn|reflexivity|].
      - destruct (answers (s_call s) t) as [|x y] eqn:X; [reflexivity|]. exfalso. apply Nc. destruct (j_other _ _ _ _ _ _ _ _ _ _ HJ (s_call s)) as (s0 & I0 & <-); [congruence|]. now apply in_map.
      - apply changed_set. apply (j_uniq _ _ _ _ _ _ _ _ _ _ HJ). }
    assert (Fr : dget Z.eqb (pr_reqs p0) (s_ts s) = None). { destruct (dget Z.eqb (pr_reqs p0) (s_ts s)) as [q|] eqn:Q; [|reflexivity]. destruct (j_req _ _ _ _ _ _ _ _ _ _ (VJ false ltac:(discriminate)) (s_ts s) q Q) as (s' & S1 & S2 & _). exfalso. apply Nh. apply in_map_iff. exists s'. rewrite S2. auto. }
    assert (G1 : forall ts, dget Z.eqb (pr_reqs p1) ts = if s_ts s =? ts then Some (KReq (zlen (pr_infos p0)) [] []) else dget Z.eqb (pr_reqs p0) ts) by (intro ts; apply zset_get).
    assert (Tr1 : tracked p1). { intros ts q Q. rewrite G1 in Q. destruct (s_ts s =? ts); [injection Q as <-; constructor|]. eapply VT, Q. }
    assert (Is : In s (starts db l ++ [s])) by (apply in_or_app; right; now left).
    assert (Loop : forall cl, (cl = true -> smooth (l ++ [e])) -> exists a, pr_outs (fst R) = pr_outs p1 ++ a /\ pr_db (fst R) = pr_db p1 /\ pr_infos (fst R) = pr_infos p1 /\ tracked (fst R) /\ elsewhere (s_ts s) p1 (fst R) /\
      (forall i, In i (flat_map expressed a) -> i = KInt (i_name i) (excludeAfter [] ch) (s_ts s) (s_call s) (s_wants s) /\ counted (fst R) (s_ts s) (i_name i) 0) /\
      J cl (l ++ [e]) (starts db l ++ [s]) (map (fun i => token i) o ++ map (fun i => token i) (flat_map expressed a)) (t ++ pr_outs (fst R)) (fst R)).
    { intros cl Hs. assert (Hs1 : cl = true -> smooth l) by (intro X; apply (smooth_snoc l e), Hs, X).
      destruct (loop_ok rsa_enc aes_enc prefix dataType Hp Hd (l ++ [e]) (starts db l ++ [s]) s (s_ts s) t (excludeAfter [] ch) rs Is eq_refl So (pr_infos p0) p1 (map (fun i => token i) o) cl) as (a & A1 & A2 & A3 & A4 & A5 & A6 & A7 & A8).
      - intro X. destruct (smooth_snoc l e (Hs X)) as (_ & Y & _). destruct (E2 Y) as (n0 & En). rewrite Ec in En. cbn [snd] in En. change (exists x, snd R = Ok x). destruct (snd R) as [u|]; [eauto|discriminate En].
      - apply HJ1, Hs1.
      - auto.
      - rewrite (j_nodes _ _ _ _ _ _ _ _ _ _ (VJ false ltac:(discriminate))). destruct (start_ok prefix dataType Hp Hd) as (_ & _ & _ & Nd & _). exact Nd.
      - exact Tr1.
      - exists a. split; [exact A1|]. split; [exact A2|]. split; [exact A3|]. split; [exact A4|]. split; [exact A5|]. split; [exact A7|]. apply A8. intro X. destruct (smooth_snoc l e (Hs X)) as (_ & _ & Y). fold p0 in Y. rewrite E1, Ec in Y. cbn [fst] in Y. fold R in A1. rewrite A1 in Y. exact Y. }
    rewrite Ec in E1. cbn [fst] in E1. rewrite E1 in Ea. rewrite E1. destruct (Loop false ltac:(discriminate)) as (a & A1 & A2 & A3 & A4 & A5 & A7 & _). cbn [p1 pr_outs app] in A1. 
    constructor; rewrite ?St, ?Ea.
    + intros cl Hs. destruct (Loop cl Hs) as (a' & A1' & _ & _ & _ & _ & _ & A8). cbn [p1 pr_outs app] in A1'. rewrite map_app, A1'. rewrite A1' in A8. exact A8.
    + intros i Ii. apply in_app_or in Ii. destruct Ii as [Ii|Ii]; [destruct (VO i Ii) as (s0 & X & Y); exists s0; split; [apply in_or_app; now left|exact Y]|]. rewrite A1 in Ii. destruct (A7 i Ii) as [-> _]. exists s. split; [exact Is|]. auto.
    + intros i Ii. rewrite Tm. apply in_app_or in Ii. destruct Ii as [Ii|Ii].
      * destruct (VO i Ii) as (s0 & X & Y1 & _). assert (Ne : i_ts i <> s_ts s) by (intro Z0; apply Nh; rewrite <- Z0, Y1; apply in_map_iff; eauto). intros q Q. rewrite (A5 _ Ne), G1 in Q. destruct (s_ts s =? i_ts i) eqn:Z0; [apply Z.eqb_eq in Z0; congruence|]. apply (VC i Ii q Q).
      * rewrite A1 in Ii. destruct (A7 i Ii) as [E X]. rewrite E. cbn [i_call i_name i_ts]. destruct (Z.eq_dec (timeouts (s_call s) (i_name i) l) 0) as [-> |Z0]; [exact X|]. destruct (VP _ _ Z0) as (s0 & S1 & S2). destruct Nc. rewrite <- S2. now apply in_map.
    + intros c0 n0. rewrite Tm. intro X. destruct (VP c0 n0 X) as (s0 & S1 & S2). exists s0. split; [apply in_or_app; now left|exact S2].
    + exact A4.
    + rewrite A2. cbn [p1 pr_db]. rewrite VD, map_app, app_assoc. reflexivity.
    + exact Sl.
Qed.

Lemma inv_back l o1 i o2 t e p' v' (ok : Prop) : Inv l (o1 ++ i :: o2) t -> asks e = [] -> fst (step (after l) e) = p' -> ((exists x, snd (step (after l) e) = Ok x) -> ok) -> (forall c n, timeouts c n (l ++ [e]) = if for_node c n i then v' else timeouts c n l) ->
  (forall s, In s (starts db l) -> i_ts i = s_ts s -> i_call i = s_call s -> i_wants i = s_wants s -> slot_ok (s_ts s) ->
     J false (l ++ [e]) (starts db l) (map (fun i => token i) o1 ++ token i :: map (fun i => token i) o2) t (pbegin (after l)) -> tracked (pbegin (after l)) -> counted (pbegin (after l)) (i_ts i) (i_name i) (timeouts (i_call i) (i_name i) l) ->
     backs rsa_enc aes_enc prefix dataType i (l ++ [e]) (starts db l) (map (fun i => token i) o1) (map (fun i => token i) o2) t (pbegin (after l)) p' v' ok) ->
  let a := pr_outs (fst (step (after l) e)) in Inv (l ++ [e]) (o1 ++ o2 ++ flat_map expressed a) (t ++ a).
Proof.
  intros [VJ VO VC VP VT VD VS] As E1 E2 Tm Hb. cbv zeta. pose proof (after_snoc l e) as Ea. rewrite E1 in Ea |- *. pose proof (starts_same l e As) as St.
  assert (Ii : In i (o1 ++ i :: o2)) by (apply in_or_app; right; now left). destruct (VO i Ii) as (s & Is & O1 & O2 & O3).
  assert (So : slot_ok (s_ts s)) by (apply VS; eapply creating_in, Is).
  assert (HJ1 : forall cl, (cl = true -> smooth l) -> J cl (l ++ [e]) (starts db l) (map (fun i => token i) o1 ++ token i :: map (fun i => token i) o2) t (pbegin (after l))).
  { intros cl Hs. unfold pbegin. apply J_outs, J_more. pose proof (VJ cl Hs) as X. rewrite map_app in X. exact X. }
  destruct (Hb s Is O1 O2 O3 So (HJ1 false ltac:(discriminate)) VT (VC i Ii)) as (B1 & B2 & B3 & B4 & B5).
  assert (Nn : forall j, In j (o1 ++ i :: o2) -> name_ok (i_name j)). { intros j Ij. apply (node_ok prefix dataType Hp Hd). apply (j_live _ _ _ _ _ _ _ _ _ _ (VJ false ltac:(discriminate)) (i_ts j)). apply in_map_iff. exists j. auto. }
  assert (Oth : forall j, In j (o1 ++ o2) -> (i_ts j, i_name j) <> token i).
  { intros j Ij X. pose proof (j_tok _ _ _ _ _ _ _ _ _ _ (HJ1 false ltac:(discriminate))) as Nt. apply NoDup_remove_2 in Nt. apply Nt. rewrite <- X, <- map_app. apply in_map_iff. eauto. }
  assert (Old : forall j, In j (o1 ++ o2 ++ flat_map expressed (pr_outs p')) -> In j (o1 ++ o2) \/ i_name j = i_name i /\ i_ts j = i_ts i /\ i_call j = i_call i /\ i_wants j = i_wants i /\ counted p' (i_ts i) (i_name i) v').
  { intros j Ij. rewrite app_assoc in Ij. apply in_app_or in Ij. destruct Ij as [Ij|Ij]; [now left|]. destruct B4 as [B4|(i' & B4 & X)]; rewrite B4 in Ij; [destruct Ij|]. destruct Ij as [<-|[]]. now right. }
  constructor; rewrite ?St, ?Ea.
  - intros cl Hs. rewrite !map_app. apply B5; [|apply HJ1; intro X; apply (smooth_snoc l e), Hs, X]. intro X. destruct (smooth_snoc l e (Hs X)) as (_ & Y1 & Y2). rewrite E1 in Y2. split; [apply E2, Y1|exact Y2].
  - intros j Ij. destruct (Old j Ij) as [X|(X1 & X2 & X3 & X4 & _)]; [apply VO; now apply in_cut|]. exists s. rewrite X2, X3, X4. auto.
  - intros j Ij. rewrite Tm. destruct (for_node (i_call j) (i_name j) i) eqn:Ef; destruct (Old j Ij) as [X|(X1 & X2 & X3 & X4 & X5)].
    + exfalso. apply for_node_iff in Ef. destruct Ef as [F1 F2]. apply (Oth j X). destruct (VO j ltac:(now apply in_cut)) as (s' & S1 & S2 & S3 & _). assert (s' = s) by (eapply (J_callq _ _ _ _ false); [apply (VJ false); discriminate| | |]; [assumption|assumption|congruence]). subst s'. congruence.
    + rewrite X1, X2. exact X5.
    + apply B3; [apply Nn; now apply in_cut|now apply Oth|]. apply VC. now apply in_cut.
    + exfalso. assert (for_node (i_call j) (i_name j) i = true) by (apply for_node_iff; split; congruence). congruence.
  - intros c n. rewrite Tm. destruct (for_node c n i) eqn:Ef; [|apply VP]. apply for_node_iff in Ef. intros _. exists s. split; [exact Is|]. destruct Ef. congruence.
  - exact B2.
  - rewrite B1. exact VD.
  - intros s0 X. rewrite flat_map_app in X. cbn [flat_map] in X. rewrite As in X. cbn [app] in X. rewrite app_nil_r in X. now apply VS.
Qed.

Lemma asks_one e : asks e <> [] -> exists s, asks e = [s].
Proof. destruct (asks_cases e) as [X|X]; [congruence|auto]. Qed.
Lemma distinct_cut l e : distinct_calls (l ++ [e]) -> distinct_calls l.
Proof.
  unfold distinct_calls. rewrite flat_map_app, map_app. destruct (asks_cases e) as [E|(s & E)]; cbn [flat_map]; rewrite E; cbn [app map]; [rewrite app_nil_r; auto|]. intro H. apply NoDup_remove_1 in H. rewrite app_nil_r in H. exact H.
Qed.
Lemma panswer_fst A (f : A -> pans) m p : fst (panswer f m p) = fst (m p) /\ ((exists x, snd (panswer f m p) = Ok x) -> exists y, snd (m p) = Ok y).
Proof. unfold panswer, pbind, pret. destruct (m p) as [p' [a|e]]; cbn [fst snd]; [eauto|]. split; [reflexivity|]. intros [x X]. discriminate X. Qed.
Lemma unit_ok (m : pm unit) g p : (exists x, snd (panswer g m p) = Ok x) -> snd (m p) = Ok tt.
Proof. intro H. destruct (proj2 (panswer_fst _ _ _ _) H) as [[] Y]. exact Y. Qed.

Theorem history_inv : forall l o t, history l o t -> Forall pevent_ok l -> distinct_calls l -> Inv l o t.
Proof.
  intros l o t H. induction H as [|l o t e H IH As a|l o1 i o2 t e H IH He a]; intros Ok Dc.
  - apply inv_start.
  - apply Forall_app in Ok. destruct Ok as [Ok Oe]. inversion Oe as [|? ? Oe1 _]; subst. specialize (IH Ok (distinct_cut _ _ Dc)). destruct e; try (destruct As; reflexivity).
    + eapply inv_call; [exact IH|reflexivity|exact Oe1|exact Dc|]. exists rs. cbn [s_ts s_call s_wants s_key]. unfold pstep, pact_of. apply panswer_fst.
    + eapply inv_call; [exact IH|reflexivity|exact Oe1|exact Dc|]. exists rs. cbn [s_ts s_call s_wants s_key]. unfold pstep, pact_of. match goal with |- context[panswer ?f ?m ?p] => destruct (panswer_fst _ f m p) as [X1 X2] end. destruct (produce_eq rsa_enc aes_enc prefix dataType ts call content key iv rs (pbegin (after l))) as [Y1 Y2]. split; [rewrite X1; exact Y1|]. intro Z0. apply Y2, X2, Z0.
  - apply Forall_app in Ok. destruct Ok as [Ok Oe]. inversion Oe as [|? ? Oe1 _]; subst. specialize (IH Ok (distinct_cut _ _ Dc)).
    destruct He as [(n & c & r & ->)|[-> | ->]].
    + eapply inv_back with (v' := 0) (ok := snd (ProdModel.handleCoveringKey rsa_enc aes_enc prefix dataType i n c r (pbegin (after l))) = Base.Ok tt); [exact IH|reflexivity|apply panswer_fst|intro X; eapply unit_ok, X|intros; rewrite timeouts_snoc; reflexivity|].
      intros s Is O1 O2 O3 So HJ Tr Ct. eapply (got_ok rsa_enc aes_enc prefix dataType Hp Hd) with (s := s) (n := n) (c := c) (r := r); try assumption; [reflexivity| |].
      * rewrite received_app. apply in_or_app. right. now left.
      * apply surjective_pairing.
    + eapply inv_back with (v' := timeouts (i_call i) (i_name i) l + 1) (ok := snd (handleTimeout maxRepeat i (pbegin (after l))) = Base.Ok tt); [exact IH|reflexivity|apply panswer_fst|intro X; eapply unit_ok, X| |].
      { intros c n. rewrite timeouts_snoc. destruct (for_node c n i) eqn:Ef; [|reflexivity]. apply for_node_iff in Ef. destruct Ef as [-> ->]. reflexivity. }
      intros s Is O1 O2 O3 So HJ Tr Ct. eapply (timeout_ok rsa_enc aes_enc prefix dataType maxRepeat Hp Hd) with (s := s); try assumption; [reflexivity| |apply surjective_pairing]. exists i. split; [left; apply in_or_app; right; now left|auto].
    + eapply inv_back with (v' := timeouts (i_call i) (i_name i) l) (ok := snd (handleNetworkNack i (pbegin (after l))) = Base.Ok tt); [exact IH|reflexivity|apply panswer_fst|intro X; eapply unit_ok, X| |].
      { intros c n. rewrite timeouts_snoc. destruct (for_node c n i) eqn:Ef; [|reflexivity]. apply for_node_iff in Ef. destruct Ef as [-> ->]. reflexivity. }
      intros s Is O1 O2 O3 So HJ Tr Ct. eapply (nack_ok rsa_enc aes_enc prefix dataType) with (s := s); try assumption; [reflexivity| |apply surjective_pairing]. exists i. split; [right; apply in_or_app; right; now left|auto].
Qed.
End Producer.
