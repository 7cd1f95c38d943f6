(** * The consumer: histories *)
From Verif Require Import Base BaseLemmas NameModel DictModel DictProofs WireModel CtlModel EncrModel ConsModel ConsSpec ConsProofs.
From Coq Require Import Lia.

Section Consumer.
Variable rsa_dec : bytes -> bytes -> res bytes.
Variable aes_dec : bytes -> bytes -> bytes -> res bytes.
Variable refuses : name -> option bytes -> bool.
Variable consumerName : name.
Variables cKeyLink dKeyLink : option bytes.
Variable group : name.
Variable db : dict bytes bytes.
Notation after := (cafter rsa_dec aes_dec refuses consumerName cKeyLink dKeyLink group db).
Notation step := (cstep rsa_dec aes_dec refuses consumerName cKeyLink dKeyLink).
Notation history := (history rsa_dec aes_dec refuses consumerName cKeyLink dKeyLink group db).
Notation group_of := (group_of group).
Notation keys_of := (keys_of consumerName db).
Notation interest_ok := (interest_ok consumerName cKeyLink dKeyLink group).
Notation cause := (cause rsa_dec aes_dec refuses consumerName cKeyLink dKeyLink group db).
Notation just := (just rsa_dec aes_dec refuses consumerName cKeyLink dKeyLink group db).
Notation known := (known rsa_dec aes_dec consumerName group db).
Notation post := (post rsa_dec aes_dec refuses consumerName cKeyLink dKeyLink group db).
Notation ckey_from := (ckey_from rsa_dec aes_dec consumerName group db).
Notation dkey_from := (dkey_from rsa_dec aes_dec consumerName db).

Lemma after_snoc : forall l e, after (l ++ [e]) = fst (step (after l) e).
Proof. intros l e. unfold cafter. rewrite fold_left_app. reflexivity. Qed.

(** Who the event is for, and what it may bring about *)
Definition ev_int (e : cevent) : option cint := match e with GotData i _ _ | Verified i _ _ | TimedOut i | Nacked i => Some i | _ => None end.
Definition ev_call (e : cevent) : option Z := match e with Consume c _ _ => Some c | _ => option_map i_call (ev_int e) end.
Definition follows (l : list cevent) (e : cevent) (a : cact) : Prop :=
  match a with
  | CExpress j => match e with
      | Consume c n k => j = CInt c n k 1 ForContent
      | TimedOut i => 0 < i_trials i /\ j = CInt (i_call i) (i_name i) (i_link i) (i_trials i - 1) (i_stage i)
      | GotData i d Accept | Verified i d true => level (i_stage i) < level (i_stage j) /\ i_trials j = 1 /\ (forall d e, i_stage j = ForCKey d e -> i_name j = with_for (key_of e) (group_of l))
      | _ => False
      end
  | CWait i d => e = GotData i d Later
  | _ => True
  end.
(** An Interest, and how it came to be sent again *)
Definition tried_before (l : list cevent) (i : cint) : Prop := i_trials i = 1 \/ exists i1, i = again i1 /\ i_trials i1 = 1 /\ In (TimedOut i1) l.
Definition fine (l : list cevent) (i : cint) : Prop := interest_ok l i /\ tried_before l i.
Lemma fine_mono : forall l m i, fine l i -> fine (l ++ m) i.
Proof. intros l m i [H1 [H2|(i1 & H2 & H3 & H4)]]; (split; [apply int_mono; exact H1|]); [left; exact H2|right]. exists i1. repeat split; auto. apply in_or_app. auto. Qed.

Lemma known_grow : forall l e p, known l [] p -> known l [e] p.
Proof.
  intros l e p (K1 & K2 & K3 & K4). rewrite app_nil_r in *. split; [exact K1|]. split; [exact K2|].
  split; [intros n k H; destruct (K3 n k H) as (n' & A & F)|intros n k H; destruct (K4 n k H) as (n' & A & F)]; exists n'; (split; [exact A|]); [apply ck_mono|apply dk_mono]; exact F.
Qed.
Lemma known_begin : forall l m p, known l m p -> known l m (cbegin p).
Proof. intros l m p H. exact H. Qed.
Lemma group_snoc : forall l e, (forall g, e <> SetGroup g) -> group_of (l ++ [e]) = group_of l.
Proof. intros l e H. unfold ConsSpec.group_of. rewrite fold_left_app. cbn [fold_left]. destruct e; try reflexivity. destruct (H g eq_refl). Qed.
Lemma keys_snoc : forall l e w, (forall n k, e <> AddKey n k) -> (forall n, e <> DeleteKey n) -> keys_of (l ++ [e]) w = keys_of l w.
Proof. intros l e w H1 H2. unfold ConsSpec.keys_of. rewrite fold_left_app. cbn [fold_left]. destruct e; try reflexivity; [destruct (H1 n k eq_refl)|destruct (H2 n eq_refl)]. Qed.
Lemma known_done : forall l e p, (forall g, e <> SetGroup g) -> (forall n k, e <> AddKey n k) -> (forall n, e <> DeleteKey n) -> known l [e] p -> known (l ++ [e]) [] p.
Proof.
  intros l e p G A D (K1 & K2 & K3 & K4). split; [rewrite group_snoc by exact G; exact K1|]. split; [intros w; rewrite keys_snoc by assumption; apply K2|].
  rewrite app_nil_r. auto.
Qed.
(** ** The database *)
Lemma dget_snoc : forall (d : dict bytes bytes) n k w, dget zlist_eqb (d ++ [(n, k)]) w = match dget zlist_eqb d w with Some x => Some x | None => if zlist_eqb n w then Some k else None end.
Proof. intros d n k w. induction d as [|[n0 k0] d IH]; cbn [app dget]; [reflexivity|]. destruct (zlist_eqb n0 w); [reflexivity|exact IH]. Qed.
Definition single (d : dict bytes bytes) : Prop := NoDup (map fst d).
Lemma single_snoc : forall d n k, single d -> din zlist_eqb d n = false -> single (d ++ [(n, k)]).
Proof.
  unfold single. induction d as [|[n0 k0] d IH]; intros n k H D; cbn [app map fst].
  - constructor; [intros []|constructor].
  - unfold din in D. cbn [dget] in D. destruct (zlist_eqb n0 n) eqn:E; [discriminate D|]. cbn [map fst] in H. apply NoDup_cons_iff in H as [H1 H2]. constructor.
    + intros I. rewrite map_app in I. apply in_app_or in I as [I|[I|[]]]; [exact (H1 I)|]. cbn in I. subst. rewrite zl_refl in E. discriminate E.
    + apply IH; [exact H2|exact D].
Qed.
Lemma dremove_single : forall (d : dict bytes bytes) n w, single d -> dget zlist_eqb (dremove zlist_eqb d n) w = if zlist_eqb n w then None else dget zlist_eqb d w.
Proof.
  unfold single. induction d as [|[n0 k0] d IH]; intros n w H; cbn [dremove dget map fst] in *; [destruct (zlist_eqb n w); reflexivity|].
  apply NoDup_cons_iff in H as [H1 H2]. destruct (zlist_eqb n0 n) eqn:E.
  - apply zlist_eqb_eq in E. subst n0. destruct (zlist_eqb n w) eqn:E2; [|reflexivity]. apply zlist_eqb_eq in E2. subst w.
    clear - H1. induction d as [|[m k] d IH]; cbn [dget]; [reflexivity|]. destruct (zlist_eqb m n) eqn:E; [apply zlist_eqb_eq in E; subst; destruct H1; left; reflexivity|]. apply IH. intros I. apply H1. right. exact I.
  - cbn [dget]. rewrite IH by exact H2. destruct (zlist_eqb n0 w) eqn:E2; [|reflexivity]. destruct (zlist_eqb n w) eqn:E3; [|reflexivity].
    apply zlist_eqb_eq in E2. apply zlist_eqb_eq in E3. subst. rewrite zl_refl in E. discriminate E.
Qed.
Lemma single_remove : forall d n, single d -> single (dremove zlist_eqb d n).
Proof.
  unfold single. induction d as [|[n0 k0] d IH]; intros n H; cbn [dremove map fst] in *; [constructor|]. apply NoDup_cons_iff in H as [H1 H2].
  destruct (zlist_eqb n0 n); [exact H2|]. cbn [map fst]. constructor; [|apply IH; exact H2]. intros I. apply H1. clear - I. induction d as [|[m k] d IH]; cbn [dremove map fst] in *; [exact I|].
  destruct (zlist_eqb m n); [right; exact I|]. destruct I as [I|I]; [left; exact I|right; exact (IH I)].
Qed.
Hypothesis Hdb : single db.

(** ** One event *)
Definition ready (l : list cevent) : Prop := known l [] (after l) /\ single (cs_db (after l)).
Lemma step_ok : forall l e, ready l -> (forall i, ev_int e = Some i -> fine l i) ->
  ready (l ++ [e]) /\ (forall n, din n_equals (cs_ckeys (after l)) n = true -> din n_equals (cs_ckeys (after (l ++ [e]))) n = true) /\
  match ev_call e with
  | None => cs_outs (fst (step (after l) e)) = []
  | Some c => exists a, cs_outs (fst (step (after l) e)) = [a] /\ just (l ++ [e]) a /\ call_of a = c /\ follows l e a /\
      match a with CComplete _ d _ => forall x, holds d x -> din n_equals (cs_ckeys (after (l ++ [e]))) (key_of x) = true | _ => True end
  end.
Proof.
  intros l e [K Sg] F. unfold ready. rewrite after_snoc. set (p := after l) in *.
  assert (Kb : known l [e] (cbegin p)) by (apply known_begin, known_grow; exact K).
  (* a step that only adds one action *)
  assert (One : forall a (x : cons * res unit), (forall g, e <> SetGroup g) -> (forall n k, e <> AddKey n k) -> (forall n, e <> DeleteKey n) -> fst x = fst (cemit a (cbegin p)) ->
    (known (l ++ [e]) [] (fst x) /\ single (cs_db (fst x))) /\ (forall n, din n_equals (cs_ckeys p) n = true -> din n_equals (cs_ckeys (fst x)) n = true) /\ cs_outs (fst x) = [a] /\ cs_ckeys (fst x) = cs_ckeys p).
  { intros a x G A D Ex. rewrite Ex. split; [split; [apply known_done; auto|exact Sg]|]. auto. }
  assert (Er : forall c code (x : cons * res unit), ev_call e = Some c -> (forall g, e <> SetGroup g) -> (forall n k, e <> AddKey n k) -> (forall n, e <> DeleteKey n) -> fst x = fst (fail c code (cbegin p)) -> cause (l ++ [e]) c code ->
    (known (l ++ [e]) [] (fst x) /\ single (cs_db (fst x))) /\ (forall n, din n_equals (cs_ckeys p) n = true -> din n_equals (cs_ckeys (fst x)) n = true) /\
    exists a, cs_outs (fst x) = [a] /\ just (l ++ [e]) a /\ call_of a = c /\ follows l e a /\ match a with CComplete _ d _ => forall y, holds d y -> din n_equals (cs_ckeys (fst x)) (key_of y) = true | _ => True end).
  { intros c code x Ec G A D Ex W. destruct (One (CError c code) x G A D Ex) as (H1 & H2 & H3 & H4). split; [exact H1|]. split; [exact H2|]. exists (CError c code). repeat split; auto. }
  (* a verified packet *)
  assert (Acc : forall i d, ev_int e = Some i -> verified (l ++ [e]) i d -> (e = GotData i d Accept \/ e = Verified i d true) ->
    let x := verifyData rsa_dec aes_dec refuses consumerName cKeyLink dKeyLink i d Accept (cbegin p) in
    (known (l ++ [e]) [] (fst x) /\ single (cs_db (fst x))) /\ (forall n, din n_equals (cs_ckeys p) n = true -> din n_equals (cs_ckeys (fst x)) n = true) /\
    exists a, cs_outs (fst x) = [a] /\ just (l ++ [e]) a /\ call_of a = i_call i /\ follows l e a /\ match a with CComplete _ d _ => forall y, holds d y -> din n_equals (cs_ckeys (fst x)) (key_of y) = true | _ => True end).
  { intros i d Ei V Ev x. destruct (F i Ei) as [W _].
    pose proof (verified_post rsa_dec aes_dec refuses consumerName cKeyLink dKeyLink group db l [e] i d (cbegin p) Kb (int_mono _ _ _ _ _ [e] _ W) V) as (P1 & P2 & P3).
    unfold x, verifyData, ctry. destruct (onVerified rsa_dec aes_dec refuses consumerName cKeyLink dKeyLink i d (cbegin p)) as [q r] eqn:Eq. cbn [fst snd] in P1, P2, P3.
    assert (N1 : forall g, e <> SetGroup g) by (destruct Ev as [->| ->]; discriminate). assert (N2 : forall n k, e <> AddKey n k) by (destruct Ev as [->| ->]; discriminate).
    assert (N3 : forall n, e <> DeleteKey n) by (destruct Ev as [->| ->]; discriminate).
    destruct P2 as (S1 & S2 & S3). cbn [cbegin cs_group cs_db cs_ckeys cs_outs app] in S1, S2, S3, P3.
    destruct P3 as [(E1 & a & E2 & J & Ec & Fo)|(y & E1 & E2 & Si)]; subst r; cbn [fst].
    - split; [split; [apply known_done; auto|rewrite S2; exact Sg]|]. split; [exact S3|]. exists a. split; [exact E2|]. split; [exact J|]. split; [exact Ec|]. split.
      + unfold follows. destruct a as [j|j dj|c dj m|c code|c]; auto; [|destruct Fo]. destruct Fo as (L1 & L2 & L3). assert (Gr : cs_group p = group_of l) by exact (proj1 Kb). rewrite Gr in L3.
        destruct Ev as [->| ->]; auto.
      + destruct a; auto.
    - unfold cemit. cbn [fst cs_ckeys cs_outs cs_db]. split; [split; [apply known_done; auto|rewrite S2; exact Sg]|]. split; [exact S3|]. exists (CLogged (i_call i)). rewrite E2. repeat split; auto. }
  unfold cstep. destruct e as [c n k|g|n k|n|i d v|i d good|i|i]; cbn [cact_of ev_call ev_int option_map] in *.
  - (* consume *)
    unfold consume. assert (W : interest_ok (l ++ [Consume c n k]) (CInt c n k 1 ForContent)) by (cbn; apply in_or_app; right; left; reflexivity).
    unfold sendInterest. cbn [i_name i_link i_call]. destruct (refuses n k) eqn:R.
    + apply (Er c E_General); try discriminate; [reflexivity|reflexivity|]. apply (W_refused _ _ _ _ _ _ _ _ _ _ (CInt c n k 1 ForContent)); [reflexivity|exact R|exact W].
    + destruct (One (CExpress (CInt c n k 1 ForContent)) (cemit (CExpress (CInt c n k 1 ForContent)) (cbegin p))) as (H1 & H2 & H3 & H4); try discriminate; [reflexivity|].
      split; [exact H1|]. split; [exact H2|]. eexists. split; [exact H3|]. repeat split. exact W.
  - (* setGroup *)
    split; [|split; [auto|reflexivity]]. split; [|exact Sg]. destruct Kb as (K1 & K2 & K3 & K4). split; [cbn; unfold ConsSpec.group_of; rewrite fold_left_app; reflexivity|].
    split; [intros w; rewrite keys_snoc by discriminate; apply K2|]. rewrite app_nil_r. auto.
  - (* addDecryptionKey *)
    destruct Kb as (K1 & K2 & K3 & K4). cbn [cbegin cs_group cs_db cs_ckeys cs_dkeys] in *.
    assert (Kq : forall d', (forall w, dget zlist_eqb d' w = keys_of (l ++ [AddKey n k]) w) -> known (l ++ [AddKey n k]) [] (Cons (cs_group p) (cs_ckeys p) (cs_dkeys p) d' [])).
    { intros d' H. split; [rewrite group_snoc by discriminate; exact K1|]. split; [exact H|]. rewrite app_nil_r. auto. }
    assert (Ks : forall w, keys_of (l ++ [AddKey n k]) w = match k with Some b => match keys_of l w with Some x => Some x | None => if n_match consumerName n && zlist_eqb (encodeName n) w then Some b else None end | None => keys_of l w end).
    { intros w. unfold ConsSpec.keys_of. rewrite fold_left_app. cbn [fold_left]. destruct k; reflexivity. }
    unfold addDecryptionKey. destruct (n_match consumerName n) eqn:M; cbn [negb].
    + unfold addKey, cbind, cget, clift, put_db. cbn [cbegin cs_db]. destruct k as [b|].
      * destruct (din zlist_eqb (cs_db p) (encodeName n)) eqn:D; cbn [fst].
        -- split; [|split; [auto|reflexivity]]. split; [|exact Sg]. apply Kq. intros w. rewrite Ks, <- K2. cbn [andb]. destruct (dget zlist_eqb (cs_db p) w) eqn:E; [reflexivity|].
           destruct (zlist_eqb (encodeName n) w) eqn:E2; [|reflexivity]. apply zlist_eqb_eq in E2. subst w. unfold din in D. rewrite E in D. discriminate D.
        -- split; [|split; [auto|reflexivity]]. split; [|apply single_snoc; assumption]. apply Kq. intros w. rewrite dget_snoc, Ks, <- K2. reflexivity.
      * cbn [fst]. split; [|split; [auto|reflexivity]]. split; [|exact Sg]. apply Kq. intros w. rewrite Ks. apply K2.
    + unfold clift. cbn [fst]. split; [|split; [auto|reflexivity]]. split; [|exact Sg]. apply Kq. intros w. rewrite Ks, <- K2. cbn [andb]. destruct k; [|reflexivity]. destruct (dget zlist_eqb (cs_db p) w); reflexivity.
  - (* deleteKey *)
    destruct Kb as (K1 & K2 & K3 & K4). cbn [cbegin cs_group cs_db cs_ckeys cs_dkeys] in *. unfold deleteKey, cbind, cget, put_db. cbn [fst cbegin cs_db cs_ckeys cs_outs].
    split; [|split; [auto|reflexivity]]. split; [|apply single_remove; exact Sg]. split; [rewrite group_snoc by discriminate; exact K1|].
    split; [|rewrite app_nil_r; auto]. intros w. cbn [cs_db]. rewrite dremove_single by exact Sg. unfold ConsSpec.keys_of. rewrite fold_left_app. cbn [fold_left]. rewrite K2. reflexivity.
  - (* a Data packet *)
    destruct v; cbn [verifyData].
    + apply (Acc i d eq_refl); [|left; reflexivity]. left. apply in_or_app. right. left. reflexivity.
    + apply (Er (i_call i) E_Validation); try discriminate; [reflexivity|reflexivity|]. eapply W_invalid; [|reflexivity]. left. apply in_or_app. right. left. reflexivity.
    + destruct (One (CWait i d) (cemit (CWait i d) (cbegin p))) as (H1 & H2 & H3 & H4); try discriminate; [reflexivity|].
      split; [exact H1|]. split; [exact H2|]. eexists. split; [exact H3|]. repeat split.
    + apply (Er (i_call i) E_General); try discriminate; [reflexivity|reflexivity|]. eapply W_raised; [|reflexivity]. apply in_or_app. right. left. reflexivity.
  - (* a late verification *)
    destruct good.
    + apply (Acc i d eq_refl); [|right; reflexivity]. right. apply in_or_app. right. left. reflexivity.
    + apply (Er (i_call i) E_Validation); try discriminate; [reflexivity|reflexivity|]. eapply W_invalid; [|reflexivity]. right. apply in_or_app. right. left. reflexivity.
  - (* a timeout *)
    destruct (F i eq_refl) as [W T]. unfold onTimeout. destruct (Z.ltb_spec 0 (i_trials i)) as [L|L].
    + set (j := CInt (i_call i) (i_name i) (i_link i) (i_trials i - 1) (i_stage i)). assert (Wj : interest_ok (l ++ [TimedOut i]) j) by exact (int_mono _ _ _ _ _ [TimedOut i] _ W).
      unfold sendInterest. destruct (refuses (i_name j) (i_link j)) eqn:R.
      * apply (Er (i_call i) E_General); try discriminate; [reflexivity|reflexivity|]. apply (W_refused _ _ _ _ _ _ _ _ _ _ j); [reflexivity|exact R|exact Wj].
      * destruct (One (CExpress j) (cemit (CExpress j) (cbegin p))) as (H1 & H2 & H3 & H4); try discriminate; [reflexivity|].
        split; [exact H1|]. split; [exact H2|]. eexists. split; [exact H3|]. repeat split; [exact Wj|exact L].
    + apply (Er (i_call i) E_RetrievalFailure); try discriminate; [reflexivity|reflexivity|]. destruct T as [T|(i1 & E & T1 & I1)]; [lia|].
      apply (W_timeout _ _ _ _ _ _ _ _ _ _ i1); [apply in_or_app; left; exact I1|apply in_or_app; right; left; rewrite E; reflexivity|exact T1|rewrite E; reflexivity].
  - (* a Nack *)
    apply (Er (i_call i) E_RetrievalFailure); try discriminate; [reflexivity|reflexivity|]. apply (W_nack _ _ _ _ _ _ _ _ _ _ i); [apply in_or_app; right; left; reflexivity|reflexivity].
Qed.
End Consumer.
