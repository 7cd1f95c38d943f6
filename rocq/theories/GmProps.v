(** * C80 The group manager of name-based access control *)
From Verif Require Import Base BaseLemmas NameModel NameSpec NameProofs NameProps DictModel DictProofs CertModel CertSpec CertProofs WireModel WireSpec WireProps BlobModel CalModel CalSpec CalProps SchedModel SchedSpec SchedProps SchedWireProps CtlModel CtlSpec EncrModel GmModel GmSpec GmProofs GmProofs2 GmProofs3.
From Coq Require Import Permutation Sorted.

Section Gm.
Variable rsa_enc : bytes -> bytes -> Z -> Z -> rsa_out.
Variable aes_enc : bytes -> bytes -> Z -> bytes -> res bytes.
Variable generate : Z -> Z -> res bytes.
Variable derive : bytes -> res bytes.
Variable orderS : Z -> list srow -> list srow.
Variable orderM : Z -> list mrow -> list mrow.
Variables prefix dataType : name.
Variables keySize hours : Z.
Hypothesis permS : forall q l, Permutation (orderS q l) l.
Hypothesis permM : forall q l, Permutation (orderM q l) l.
Hypothesis space : space_ok prefix dataType.
Notation step := (GmModel.step rsa_enc aes_enc generate derive orderS orderM prefix dataType keySize hours).
Notation run := (GmModel.run rsa_enc aes_enc generate derive orderS orderM prefix dataType keySize hours).
Notation run_from := (GmModel.run_from rsa_enc aes_enc generate derive orderS orderM prefix dataType keySize hours).
Notation getGroupKey := (GmModel.getGroupKey rsa_enc aes_enc generate derive orderS orderM prefix dataType keySize hours).
Notation takePair := (GmModel.takePair generate derive keySize).
Notation Keep := (GmProofs3.Keep derive).

(** ** The steps *)
Lemma gk_eq : forall d g us need q seed rs i keys, rep d g -> stored g -> slot_range us -> calculateInterval orderS orderM d q us = Ok (i, keys) -> iv_valid i = true ->
  exists sa sb, toIsoString (iv_start i) = Ok sa /\ fromIsoString sa = Ok (iv_start i) /\ toIsoString (iv_end i) = Ok sb /\ fromIsoString sb = Ok (iv_end i) /\
  fits (eKeyName prefix dataType (c_generic sa) (c_generic sb)) /\
  getGroupKey d us need q seed rs =
    (let '(d', r) := takePair d (eKeyName prefix dataType (c_generic sa) (c_generic sb)) need seed in
     (d', rbind r (fun p => let '(pub, priv) := p in
            rbind (createDKeys rsa_enc aes_enc prefix dataType hours (c_generic sa) (c_generic sb) (n_sorted (dkeys keys)) keys priv rs)
              (fun ds => Ok (createEKeyData prefix dataType hours (c_generic sa) (c_generic sb) pub :: ds))))).
Proof.
  intros d g us need q seed rs i keys R St Sl E V. destruct (calc_any orderS orderM d g us q i keys R St E V) as (B1 & B2 & B3 & B4).
  destruct (iso_ok us (iv_start i) Sl ltac:(lia) B3) as (sa & A1 & A2 & A3 & A4 & A5). destruct (iso_ok us (iv_end i) Sl ltac:(lia) B4) as (sb & C1 & C2 & C3 & C4 & C5).
  exists sa, sb. split; [exact A1|]. split; [exact A2|]. split; [exact C1|]. split; [exact C2|]. split; [apply ekey_fits; assumption|].
  unfold GmModel.getGroupKey. rewrite E, V. cbn [negb]. unfold iv_getStartTime, iv_getEndTime. rewrite V. cbn [negb rbind]. rewrite A1. cbn [rbind]. rewrite C1. cbn [rbind]. rewrite A3. cbn [rbind]. rewrite C3. cbn [rbind]. reflexivity.
Qed.
Lemma gk_state : forall d g us need q seed rs, rep d g -> stored g -> Keep d -> slot_range us ->
  let d' := fst (getGroupKey d us need q seed rs) in
  same_tables d d' /\ Keep d' /\ (full d -> full d').
Proof.
  intros d g us need q seed rs R St K Sl. cbv zeta. destruct (calculateInterval orderS orderM d q us) as [[i keys]|e] eqn:E.
  2: { unfold GmModel.getGroupKey. rewrite E. cbn [fst]. split; [split; reflexivity|auto]. }
  destruct (iv_valid i) eqn:V. 2: { unfold GmModel.getGroupKey. rewrite E, V. cbn [negb fst]. split; [split; reflexivity|auto]. }
  destruct (gk_eq d g us need q seed rs i keys R St Sl E V) as (sa & sb & _ & _ & _ & _ & F & ->).
  pose proof (take_ok generate derive keySize d _ need seed K F) as T. destruct (takePair _ _ _ _) as [d' r]. cbn [fst]. destruct T as (T1 & T2 & T3 & _). auto.
Qed.

Definition plain (c : call) : bool := match c with GroupKey _ _ _ _ _ | CleanEKeys => false | _ => true end.
Lemma keep_same : forall d d', db_ekeys d' = db_ekeys d -> db_base d' = db_base d -> Keep d -> Keep d' /\ (full d -> full d').
Proof. intros d d' E1 E2 [A B C D E]. split; [split; rewrite ?E1, ?E2; assumption|]. unfold full. rewrite E1, E2. auto. Qed.
Lemma stored_put : forall g n s m, stored g -> storable s -> n <> [] -> stored (Grp (put_sched g n (Some s)) m).
Proof. intros g n s m St Hs Nn n' s' H. cbn [g_sched] in H. unfold put_sched in H. destruct (str_dec n' n) as [-> |]; [split; [congruence|exact Nn]|exact (St n' s' H)]. Qed.
Lemma step_ok : forall d g c, rep d g -> stored g -> Keep d -> call_ok c ->
  rep (fst (step d c)) (g_step g c) /\ stored (g_step g c) /\ Keep (fst (step d c)) /\ (c <> Restart -> full d -> full (fst (step d c))) /\
  (plain c = true -> snd (step d c) = match g_call g c with Some _ => Done | None => Raised RuntimeError end).
Proof.
  intros d g c R St K Ok0.
  assert (Hsame : forall d', db_ekeys d' = db_ekeys d -> db_base d' = db_base d -> Keep d' /\ (c <> Restart -> full d -> full d')) by (intros d' E1 E2; destruct (keep_same d d' E1 E2 K); auto).
  destruct c as [n s|n|a b|n s|sn kn k|i sn|i|us need q seed rs| |]; cbn [GmModel.step call_ok plain] in *; unfold g_step.
  - destruct (stored_ok s Ok0) as (w & Ew & Dw). cbn [g_call]. unfold addSchedule. destruct n as [|c0 n0].
    + cbn [lift fst snd]. split; [exact R|]. split; [exact St|]. split; [exact K|]. auto.
    + replace (zlen (c0 :: n0) =? 0) with false by (rewrite zlen_cons; pose proof (zlen_nonneg _ n0); lia). rewrite Ew. set (n := c0 :: n0). destruct (g_sched g n) as [x|] eqn:Gs.
      * rewrite (has_some d g R n x Gs). cbn [lift fst snd]. split; [exact R|]. split; [exact St|]. split; [exact K|]. auto.
      * rewrite (has_none d g R n Gs). cbn [lift fst snd]. split; [apply rep_add; assumption|]. split; [apply stored_put; [assumption|assumption|discriminate]|]. destruct (Hsame (Db (db_sched d ++ [SRow (nextId (db_sched d)) n w]) (db_mem d) (db_ekeys d) (db_base d)) eq_refl eq_refl). auto.
  - cbn [g_call fst snd]. split; [apply rep_delete; exact R|]. split; [|destruct (Hsame (deleteSchedule d n) eq_refl eq_refl); auto].
    intros n' s' H. cbn [g_sched] in H. unfold put_sched in H. destruct (str_dec n' n); [discriminate H|exact (St n' s' H)].
  - cbn [g_call]. unfold renameSchedule. destruct b as [|c0 n0].
    + cbn [lift fst snd]. destruct (g_sched g a), (g_sched g []); (split; [exact R|]); (split; [exact St|]); (split; [exact K|]); auto.
    + replace (zlen (c0 :: n0) =? 0) with false by (rewrite zlen_cons; pose proof (zlen_nonneg _ n0); lia). set (b := c0 :: n0). destruct (g_sched g a) as [s|] eqn:Ga.
      * rewrite (has_some d g R a s Ga). cbn [andb]. destruct (g_sched g b) as [s'|] eqn:Gb.
        -- rewrite (has_some d g R b s' Gb), andb_true_r. destruct (str_dec a b) as [E|Ne].
           ++ rewrite <- E. replace (zlist_eqb a a) with true by (symmetry; apply zlist_eqb_eq; reflexivity). cbn [negb lift fst snd]. rewrite rename_self. split; [eapply rep_same; [|exact R]; split; reflexivity|]. split; [exact St|].
              destruct (Hsame (Db (db_sched d) (db_mem d) (db_ekeys d) (db_base d)) eq_refl eq_refl). auto.
           ++ assert (X : zlist_eqb a b = false) by (destruct (zlist_eqb a b) eqn:X; [apply zlist_eqb_eq in X; contradiction|reflexivity]). rewrite X. cbn [negb lift fst snd]. split; [exact R|]. split; [exact St|]. split; [exact K|]. auto.
        -- rewrite (has_none d g R b Gb), andb_false_r. cbn [lift fst snd]. split; [apply rep_rename; assumption|]. split.
           ++ intros n' s'. cbn [g_sched]. destruct (str_dec n' b); [intros [= <-]; split; [exact (proj1 (St a s Ga))|subst n'; discriminate]|]. destruct (str_dec n' a); [discriminate|]. apply St.
           ++ match goal with |- Keep ?x /\ _ => destruct (Hsame x eq_refl eq_refl) end. auto.
      * rewrite (has_none d g R a Ga). cbn [andb lift fst snd]. rewrite (rename_none d g a b R Ga). destruct (g_sched g b); (split; [eapply rep_same; [|exact R]; split; reflexivity|]); (split; [exact St|]); destruct (Hsame (Db (db_sched d) (db_mem d) (db_ekeys d) (db_base d)) eq_refl eq_refl); auto.
  - destruct (stored_ok s Ok0) as (w & Ew & Dw). cbn [g_call]. unfold updateSchedule, addSchedule. rewrite Ew. destruct n as [|c0 n0].
    + destruct (g_sched g []) as [x|] eqn:Gs; [elim (proj2 (St [] x Gs)); reflexivity|]. rewrite (has_none d g R [] Gs). cbn [negb lift fst snd]. split; [exact R|]. split; [exact St|]. split; [exact K|]. auto.
    + set (n := c0 :: n0). destruct (g_sched g n) as [x|] eqn:Gs.
      * rewrite (has_some d g R n x Gs). cbn [negb lift fst snd]. split; [eapply rep_set; eassumption|]. split; [apply stored_put; [assumption|assumption|discriminate]|]. match goal with |- Keep ?x /\ _ => destruct (Hsame x eq_refl eq_refl) end. auto.
      * rewrite (has_none d g R n Gs). cbn [negb]. replace (zlen n =? 0) with false by (unfold n; rewrite zlen_cons; pose proof (zlen_nonneg _ n0); lia). cbn [lift fst snd]. split; [apply rep_add; assumption|]. split; [apply stored_put; [assumption|assumption|discriminate]|].
        match goal with |- Keep ?x /\ _ => destruct (Hsame x eq_refl eq_refl) end. auto.
  - destruct Ok0 as [Nk Fk]. cbn [g_call]. unfold addMember, identity_of. destruct (g_sched g sn) as [s|] eqn:Gs.
    + destruct (id_some d g R sn s Gs) as (r & _ & _ & _ & ->). rewrite (prefix1 kn Nk). cbn [rbind]. destruct (g_member g (removelast kn)) as [x|] eqn:Gm.
      * rewrite (hasm_some d g R _ x Gm). cbn [lift fst snd]. split; [exact R|]. split; [exact St|]. split; [exact K|]. auto.
      * rewrite (hasm_none d g R _ (fits_prefix kn Fk) Gm). cbn [lift fst snd]. split; [eapply rep_addm; eassumption|]. split; [exact St|]. match goal with |- Keep ?x /\ _ => destruct (Hsame x eq_refl eq_refl) end. auto.
    + rewrite (id_none d g R sn Gs). cbn [lift fst snd]. change (-1 =? -1) with true. cbn [lift fst snd]. split; [exact R|]. split; [exact St|]. split; [exact K|]. auto.
  - cbn [g_call]. unfold updateMemberSchedule. destruct (g_sched g sn) as [s|] eqn:Gs.
    + destruct (id_some d g R sn s Gs) as (r & _ & _ & _ & ->). destruct (g_member g i) as [[[sn0 kn0] k0]|] eqn:Gm.
      * cbn [lift fst snd]. split; [eapply rep_updm; eassumption|]. split; [exact St|]. match goal with |- Keep ?x /\ _ => destruct (Hsame x eq_refl eq_refl) end. auto.
      * rewrite (updm_none d g i _ R Ok0 Gm). cbn [lift fst snd]. split; [eapply rep_same; [|exact R]; split; reflexivity|]. split; [exact St|]. match goal with |- Keep ?x /\ _ => destruct (Hsame x eq_refl eq_refl) end. auto.
    + rewrite (id_none d g R sn Gs). change (-1 =? -1) with true. cbn [lift fst snd]. split; [exact R|]. split; [exact St|]. split; [exact K|]. auto.
  - cbn [g_call fst snd]. split; [apply rep_delm; assumption|]. split; [exact St|]. match goal with |- Keep ?x /\ _ => destruct (Hsame x eq_refl eq_refl) end. auto.
  - cbn [g_call]. pose proof (gk_state d g us need q seed rs R St K Ok0) as X. cbv zeta in X. destruct (getGroupKey d us need q seed rs) as [d' r]. cbn [fst snd] in *. destruct X as (X1 & X2 & X3). split; [exact (rep_same d d' g X1 R)|]. split; [exact St|]. split; [exact X2|]. split; [auto|discriminate].
  - cbn [g_call cleanEKeys fst snd]. split; [exact R|]. split; [exact St|]. split; [exact K|]. split; [auto|discriminate].
  - cbn [g_call fst snd]. unfold reopen. split; [eapply rep_same; [|exact R]; split; reflexivity|]. split; [exact St|]. split; [|split; [intros X; elim X; reflexivity|reflexivity]].
    destruct K as [A B C D E]. split; cbn [db_ekeys db_base]; try assumption; [constructor|constructor|]. intros n priv _ H. discriminate H.
Qed.

Definition no_restart (c : call) : Prop := match c with Restart => False | _ => True end.
Lemma run_snoc : forall l c, run (l ++ [c]) = fst (step (run l) c).
Proof. intros. unfold GmModel.run, GmModel.run_from. rewrite fold_left_app. reflexivity. Qed.
Lemma g_run_snoc : forall l c, g_run (l ++ [c]) = g_step (g_run l) c.
Proof. intros. unfold g_run. rewrite fold_left_app. reflexivity. Qed.
Lemma run_ok : forall l, Forall call_ok l -> rep (run l) (g_run l) /\ stored (g_run l) /\ Keep (run l) /\ (Forall no_restart l -> full (run l)).
Proof.
  induction l as [|c l IH] using rev_ind; intros H.
  - split; [exact rep_empty|]. split; [intros n s X; discriminate X|]. split.
    + split; cbn; [constructor|intros r []|constructor|constructor|intros n p _ X; discriminate X].
    + intros _ n p _ [].
  - apply Forall_app in H. destruct H as [H1 H2]. inversion H2 as [|? ? H3 _]; subst. destruct (IH H1) as (R & St & K & F). rewrite run_snoc, g_run_snoc.
    destruct (step_ok (run l) (g_run l) c R St K H3) as (R' & St' & K' & F' & _). split; [exact R'|]. split; [exact St'|]. split; [exact K'|].
    intros N. apply Forall_app in N. destruct N as [N1 N2]. inversion N2 as [|? ? N3 _]; subst. apply F'; [intros ->; exact N3|apply F; exact N1].
Qed.

(** ** The theorems *)
(** Whatever the calls, the database shows the group those calls make. *)
Theorem C80_history : forall l, Forall call_ok l -> let d := run l in let g := g_run l in
  (forall n, hasSchedule d n = true <-> g_sched g n <> None) /\
  (forall n s, getSchedule d n = Ok s <-> g_sched g n = Some s) /\
  (forall q, NoDup (listAllScheduleNames orderS d q) /\ forall n, In n (listAllScheduleNames orderS d q) <-> g_sched g n <> None) /\
  (forall i, fits i -> (hasMember d i = true <-> g_member g i <> None)) /\
  (forall i sn, fits i -> (getMemberSchedule d i = Ok sn <-> exists kn k, g_member g i = Some (sn, kn, k))) /\
  (forall q, exists ms, listAllMembers orderM d q = Ok ms /\ NoDup ms /\ forall i, In i ms <-> g_member g i <> None) /\
  (forall q n, exists M, getScheduleMembers orderM d n q = Ok M /\ NoDup (dkeys M) /\ forall kn k, In (kn, k) M <-> exists i, g_member g i = Some (n, kn, k)).
Proof.
  intros l H. cbv zeta. destruct (run_ok l H) as (R & St & _). set (d := run l) in *. set (g := g_run l) in *. clearbody d g.
  assert (HS : forall n, hasSchedule d n = true <-> g_sched g n <> None).
  { intros n. destruct (g_sched g n) as [s|] eqn:E; [rewrite (has_some d g R n s E); split; [discriminate|reflexivity]|rewrite (has_none d g R n E); split; [discriminate|congruence]]. }
  split; [exact HS|]. split; [|split; [|split; [|split; [|split]]]].
  - intros n s. split; [|apply get_sched; exact R]. intros E. destruct (g_sched g n) as [s'|] eqn:G; [rewrite (get_sched d g n s' R G) in E; congruence|]. unfold getSchedule in E. rewrite (no_row d g R n G) in E. discriminate E.
  - intros q. unfold listAllScheduleNames. pose proof (Permutation_map s_name (permS q (db_sched d))) as P. split; [apply (Permutation_NoDup (Permutation_sym P)); apply R|].
    intros n. split.
    + intros I. apply (Permutation_in _ P) in I. apply in_map_iff in I. destruct I as (r & En & I). apply HS. apply existsb_exists. exists r. split; [exact I|apply s_is_iff; exact En].
    + intros I. apply HS in I. apply existsb_exists in I. destruct I as (r & I & En). apply s_is_iff in En. apply (Permutation_in _ (Permutation_sym P)). apply in_map_iff. exists r. auto.
  - intros i Fi. destruct (g_member g i) as [x|] eqn:E; [rewrite (hasm_some d g R i x E); split; [discriminate|reflexivity]|rewrite (hasm_none d g R i Fi E); split; [discriminate|congruence]].
  - intros i sn Fi. unfold getMemberSchedule. split.
    + destruct (find (m_is i) (db_mem d)) as [m|] eqn:F; [|discriminate]. apply find_some in F. destruct F as [I F]. destruct (find (fun r => s_id r =? m_sid m) (db_sched d)) as [r|] eqn:F2; [|discriminate]. apply find_some in F2. destruct F2 as [I2 F2]. apply Z.eqb_eq in F2. intros [= <-].
      destruct (r_mems d g R m I) as ((i' & kn & k & M) & _). apply (mem_id m i' kn k i M Fi) in F. subst i'. exists kn, k. apply (r_member d g R). exists m, r. auto.
    + intros (kn & k & E). apply (r_member d g R) in E. destruct E as (m & r & Im & Ir & Er & En & M).
      destruct (find (m_is i) (db_mem d)) as [m'|] eqn:F; [|rewrite find_none_iff in F; specialize (F m Im); rewrite (proj2 (mem_id m i kn k i M Fi) eq_refl) in F; discriminate F].
      apply find_some in F. destruct F as [I F]. apply m_is_iff in F. assert (m' = m) by (apply (nodup_inj _ _ m_name (db_mem d)); [apply R|assumption|assumption|destruct M as (_ & _ & _ & Y & _); congruence]). subst m'.
      destruct (find (fun r => s_id r =? m_sid m) (db_sched d)) as [r'|] eqn:F2; [|rewrite find_none_iff in F2; specialize (F2 r Ir); cbn beta in F2; lia].
      apply find_some in F2. destruct F2 as [I2 F2]. apply Z.eqb_eq in F2. assert (r' = r) by (apply (nodup_inj _ _ s_id (db_sched d)); [apply R|assumption|assumption|congruence]). subst r'. congruence.
  - intros q. unfold listAllMembers. pose proof (permM q (db_mem d)) as P.
    assert (X : forall l, (forall m, In m l -> In m (db_mem d)) -> NoDup (map m_name l) -> exists ms, decodeNames (map m_name l) = Ok ms /\ NoDup ms /\ forall i, In i ms <-> exists m kn k, In m l /\ mem_of m i kn k).
    { clear P. induction l0 as [|m l0 IH]; intros Sub Nd; [exists []; split; [reflexivity|]; split; [constructor|]; intros i; split; [intros []|intros (m & kn & k & [] & _)]|].
      cbn [map] in *. inversion Nd as [|? ? N1 N2]; subst. destruct (r_mems d g R m (Sub m (or_introl eq_refl))) as ((i & kn & k & M) & _). pose proof M as (_ & Fi & _ & Ei & _).
      destruct (IH (fun m' H' => Sub m' (or_intror H')) N2) as (ms & E & Nm & Im). cbn [decodeNames]. rewrite Ei. rewrite (proj2 (C08_name_round_trip i (proj1 Fi) (proj2 Fi))). rewrite E. cbn [rbind]. exists (i :: ms). split; [reflexivity|]. split.
      - constructor; [|exact Nm]. intros K. apply Im in K. destruct K as (m' & kn' & k' & I' & M'). apply N1. rewrite Ei. destruct M' as (_ & _ & _ & E' & _). rewrite <- E'. apply in_map. exact I'.
      - intros j. cbn [In]. rewrite Im. split.
        + intros [<-|(m' & kn' & k' & I' & M')]; [exists m, kn, k; auto|exists m', kn', k'; auto].
        + intros (m' & kn' & k' & [<-|I'] & M'); [left; apply (mem_fun _ _ _ _ _ _ _ M M')|right; exists m', kn', k'; auto]. }
    destruct (X (orderM q (db_mem d))) as (ms & E & Nm & Im).
    + intros m I. apply (Permutation_in _ P I).
    + apply (Permutation_NoDup (Permutation_map m_name (Permutation_sym P))). apply R.
    + exists ms. split; [exact E|]. split; [exact Nm|]. intros i. rewrite Im. split.
      * intros (m & kn & k & I & M). apply (Permutation_in _ P) in I. destruct (r_mems d g R m I) as (_ & r & Ir & Er). assert (Y : g_member g i = Some (s_name r, kn, k)) by (apply (r_member d g R); exists m, r; auto). congruence.
      * destruct (g_member g i) as [[[sn kn] k]|] eqn:G; [intros _|congruence]. apply (r_member d g R) in G. destruct G as (m & r & I & _ & _ & _ & M). exists m, kn, k. split; [apply (Permutation_in _ (Permutation_sym P) I)|exact M].
  - intros q n. destruct (members_ok orderM permM d g n q R) as (M & E & D & U & G). exists M. split; [exact E|]. split; [exact U|]. intros kn k. split.
    + intros I. apply G; [|exact (in_dget _ _ neq_eq M kn k D U I)]. unfold dom in D. rewrite Forall_forall in D. apply (D (kn, k) I).
    + intros (i & X). pose proof X as X0. apply (r_member d g R) in X. destruct X as (_ & _ & _ & _ & _ & _ & (Fk & _)). apply (dget_in _ _ neq_eq M kn k D Fk). apply G; [exact Fk|]. exists i. exact X0.
Qed.
(** A call succeeds exactly when the group allows it. *)
Theorem C80_answers : forall l c, Forall call_ok (l ++ [c]) -> plain c = true ->
  snd (step (run l) c) = match g_call (g_run l) c with Some _ => Done | None => Raised RuntimeError end.
Proof.
  intros l c H P. apply Forall_app in H. destruct H as [H1 H2]. inversion H2 as [|? ? H3 _]; subst. destruct (run_ok l H1) as (R & St & K & _). apply (step_ok _ _ c R St K H3). exact P.
Qed.

(** What can go wrong in getGroupKey: generating the pair, encrypting for an entitled member, or
    a private key lost by opening the database again *)
Definition key_error (l : list call) (us seed : Z) (rs : name -> rnd) (e : exn) : Prop :=
  generate keySize seed = Err e \/ (exists priv, generate keySize seed = Ok priv /\ derive priv = Err e) \/
  (exists kn k priv, entitled (g_run l) us kn k /\ seal_error rsa_enc aes_enc k 3 (rs kn) priv e) \/
  e = KeyError /\ In Restart l.
Definition somebody (g : group) (us : Z) : Prop := exists n s, g_sched g n = Some s /\ allowed s us.

Lemma base_names : forall kind a b, (namespace prefix dataType ++ [kind]) ++ [a] ++ [b] = prefix ++ [N_READ] ++ dataType ++ [kind; a; b].
Proof. intros. unfold namespace. rewrite <- !app_assoc. reflexivity. Qed.
Lemma restart_in : forall l, ~ In Restart l -> Forall no_restart l.
Proof. intros l H. apply Forall_forall. intros c I. destruct c; cbn; auto. Qed.

Lemma restart_dec : forall l : list call, In Restart l \/ ~ In Restart l.
Proof.
  induction l as [|c l [I|N]]; [right; intros []|left; right; exact I|]. destruct c; try (left; left; reflexivity); right; intros [X|X]; try discriminate X; exact (N X).
Qed.
Lemma gk_full : forall l us need q seed rs, Forall call_ok l -> slot_range us -> good_slot (g_run l) us ->
  exists i keys, calculateInterval orderS orderM (run l) q us = Ok (i, keys) /\
  (iv_valid i = false /\ (forall n s, g_sched (g_run l) n = Some s -> ~ allowed s us) /\ getGroupKey (run l) us need q seed rs = (run l, Ok []) \/
   iv_valid i = true /\ somebody (g_run l) us /\ slot_interval (g_run l) us (iv_start i) (iv_end i) /\
   exists sa sb d' r, iso_comp (iv_start i) (c_generic sa) /\ iso_comp (iv_end i) (c_generic sb) /\ fits (eKeyName prefix dataType (c_generic sa) (c_generic sb)) /\
     takePair (run l) (eKeyName prefix dataType (c_generic sa) (c_generic sb)) need seed = (d', r) /\
     fst (getGroupKey (run l) us need q seed rs) = d' /\
     match snd (getGroupKey (run l) us need q seed rs) with
     | Ok ps => exists priv pub, r = Ok (pub, priv) /\ key_packets rsa_enc aes_enc prefix dataType hours (g_run l) us (iv_start i) (iv_end i) priv pub rs ps /\
                exists e ds, ps = e :: ds /\ p_name e = eKeyName prefix dataType (c_generic sa) (c_generic sb) /\ p_content e = pub
     | Err e => r = Err e \/ exists pub priv, r = Ok (pub, priv) /\ exists kn k, entitled (g_run l) us kn k /\ seal_error rsa_enc aes_enc k 3 (rs kn) priv e
     end).
Proof.
  intros l us need q seed rs H Sl Go. destruct (run_ok l H) as (R & St & K & F).
  destruct (calc_ok orderS orderM permS permM (run l) (g_run l) us q R St Go) as (i & keys & E & DK & UK & Ent & Cs). exists i, keys. split; [exact E|].
  destruct Cs as [[V N]|(V & B & SI & Some0)]; [left; split; [exact V|]; split; [exact N|]; unfold GmModel.getGroupKey; rewrite E, V; reflexivity|]. right. split; [exact V|]. split; [exact Some0|]. split; [exact SI|].
  destruct (gk_eq (run l) (g_run l) us need q seed rs i keys R St Sl E V) as (sa & sb & A1 & A2 & A3 & A4 & Fe & Eq).
  destruct (takePair (run l) (eKeyName prefix dataType (c_generic sa) (c_generic sb)) need seed) as [d' r] eqn:Et. exists sa, sb, d', r.
  assert (Ia : iso_comp (iv_start i) (c_generic sa)) by (exists sa; auto). assert (Ib : iso_comp (iv_end i) (c_generic sb)) by (exists sb; auto).
  split; [exact Ia|]. split; [exact Ib|]. split; [exact Fe|]. split; [exact Et|]. rewrite Eq. cbn [fst snd]. split; [reflexivity|].
  destruct r as [[pub priv]|e]; cbn [rbind]; [|left; reflexivity].
  assert (Fk : Forall fits (dkeys keys)) by (unfold dkeys; apply Forall_forall; intros x Hx; apply in_map_iff in Hx; destruct Hx as (p & <- & Hp); unfold dom in DK; rewrite Forall_forall in DK; apply DK; exact Hp).
  pose proof (sorted_perm (dkeys keys)) as Pm. assert (Fs : Forall fits (n_sorted (dkeys keys))) by (apply (Permutation_Forall (Permutation_sym Pm)); exact Fk).
  assert (Has : forall n, In n (n_sorted (dkeys keys)) <-> fits n /\ exists k, dget n_equals keys n = Some k).
  { intros n. split.
    - intros I. rewrite Forall_forall in Fs. split; [apply Fs; exact I|]. apply (Permutation_in _ Pm) in I. destruct (dget n_equals keys n) as [k|] eqn:Eg; [eauto|]. apply (dget_none _ _ neq_eq keys n DK) in Eg; [contradiction|]. apply Fs. apply (Permutation_in _ (Permutation_sym Pm)). exact I.
    - intros [Fn (k & Eg)]. apply (Permutation_in _ (Permutation_sym Pm)). exact (dget_some_key _ _ neq_eq keys n k DK Fn Eg). }
  pose proof (dkeys_ok rsa_enc aes_enc prefix dataType hours (c_generic sa) (c_generic sb) keys priv rs DK _ Fs (fun n I => proj2 (proj1 (Has n) I))) as X.
  destruct (createDKeys _ _ _ _ _ _ _ _ keys priv rs) as [ds|e]; cbn [rbind].
  - exists priv, pub. split; [reflexivity|]. split; [|eexists _, _; split; [reflexivity|]; split; reflexivity].
    exists (c_generic sa), (c_generic sb). split; [exact Ia|]. split; [exact Ib|]. cbv zeta. eexists _, ds. split; [reflexivity|]. split.
    + unfold createEKeyData, eKeyName, freshness. rewrite base_names. reflexivity.
    + exists (n_sorted (dkeys keys)). split; [apply sorted_ok; assumption|]. split.
      * intros kn. rewrite Has. split.
        -- intros [Fn (k & Eg)]. exists k. apply Ent; assumption.
        -- intros (k & Ek). pose proof Ek as (i0 & sn0 & s0 & Gm & _). destruct (holds_fun (run l) (g_run l) kn k k R) as [_ Fn]; [exists i0, sn0; exact Gm|exists i0, sn0; exact Gm|]. split; [exact Fn|]. exists k. apply Ent; assumption.
      * clear -X Ent Fs. revert X Fs. generalize (n_sorted (dkeys keys)). intros ns X. induction X as [|n p ns ds (k & Eg & P1 & P2 & P3) X IH]; intros Fs; [constructor|]. inversion Fs as [|? ? F1 F2]; subst. constructor; [|apply IH; exact F2].
        exists k. split; [apply Ent; assumption|]. split; [|split; assumption]. rewrite P1. unfold dkey_base. rewrite base_names. reflexivity.
  - right. exists pub, priv. split; [reflexivity|]. destruct X as (n & k & I & Eg & Se). exists n, k. split; [|exact Se]. apply Ent; [|exact Eg]. rewrite Forall_forall in Fs. apply Fs. exact I.
Qed.

(** getGroupKey gives nothing when no schedule allows the time slot.  Otherwise it gives, for an
    interval that contains the slot and in which no schedule changes, the E-KEY with the public key
    of one key pair, and for every member who may read, in the order of the key names, one D-KEY
    with the private key of that pair encrypted for that member only. *)
Theorem C80_group_key : forall l us need q seed rs, Forall call_ok l -> slot_range us -> good_slot (g_run l) us ->
  match snd (step (run l) (GroupKey us need q seed rs)) with
  | Keys [] => ~ somebody (g_run l) us
  | Keys ps => somebody (g_run l) us /\ exists a b priv pub, slot_interval (g_run l) us a b /\ derive priv = Ok pub /\ (need = true -> generate keySize seed = Ok priv) /\
               key_packets rsa_enc aes_enc prefix dataType hours (g_run l) us a b priv pub rs ps
  | Raised e => somebody (g_run l) us /\ key_error l us seed rs e
  | Done => False
  end.
Proof.
  intros l us need q seed rs H Sl Go. destruct (run_ok l H) as (R & St & K & F). destruct (gk_full l us need q seed rs H Sl Go) as (i & keys & E & Cs). cbn [GmModel.step].
  destruct Cs as [(V & N & Eq)|(V & Sb & SI & sa & sb & d' & r & Ia & Ib & Fe & Et & Ef & Es)].
  - rewrite Eq. cbn [snd]. intros (n & s & Hs & Al). exact (N n s Hs Al).
  - pose proof (take_ok generate derive keySize (run l) _ need seed K Fe) as T. rewrite Et in T. destruct T as (_ & _ & _ & _ & T).
    destruct (getGroupKey (run l) us need q seed rs) as [d2 r2]. cbn [fst snd] in *. destruct r2 as [ps|e].
    + destruct Es as (priv & pub & -> & Kp & e & ds & -> & _ & _). split; [exact Sb|]. exists (iv_start i), (iv_end i), priv, pub. split; [exact SI|]. destruct T as (T1 & T2 & T3). split; [exact T1|]. split; [intros ->; exact T3|exact Kp].
    + split; [exact Sb|]. destruct Es as [-> |(pub & priv & -> & kn & k & En & Se)].
      * destruct T as [[G|G]|(-> & Hh & Gn)]; [left; exact G|right; left; exact G|]. right. right. right. split; [reflexivity|]. destruct (restart_dec l) as [I|N]; [exact I|]. apply restart_in in N. apply hasE_iff in Hh. destruct Hh as (pb & I). destruct (F N _ pb Fe I) as (pv & X). congruence.
      * right. right. left. exists kn, k, priv. auto.
Qed.

(** ** The same pair *)
Definition same_keys (c : call) : Prop := match c with Restart => False | GroupKey us need _ _ _ => need = false | _ => True end.
Lemma pair_same : forall d d' n, db_ekeys d' = db_ekeys d -> db_base d' = db_base d -> pair_of d' n = pair_of d n.
Proof. intros d d' n E1 E2. unfold pair_of, getEKey. rewrite E1, E2. reflexivity. Qed.
Lemma step_keys : forall d c, plain c = true -> same_keys c -> db_ekeys (fst (step d c)) = db_ekeys d /\ db_base (fst (step d c)) = db_base d.
Proof.
  intros d c P S0. destruct c as [n s|n|a b|n s|sn kn k|i sn|i|us need q seed rs| |]; cbn [GmModel.step plain same_keys] in *; try discriminate P; try contradiction; try (split; reflexivity).
  - unfold addSchedule. destruct (zlen n =? 0); [split; reflexivity|]. destruct (sc_wireEncode s); [|split; reflexivity]. destruct (hasSchedule d n); split; reflexivity.
  - unfold renameSchedule. destruct (zlen b =? 0); [split; reflexivity|]. destruct (_ && _); split; reflexivity.
  - unfold updateSchedule, addSchedule. destruct (hasSchedule d n); cbn [negb]; [destruct (sc_wireEncode s); split; reflexivity|]. destruct (zlen n =? 0); [split; reflexivity|]. destruct (sc_wireEncode s); split; reflexivity.
  - unfold addMember. destruct (_ =? _); [split; reflexivity|]. destruct (n_getPrefix kn (-1)) as [m|]; cbn [rbind]; [|split; reflexivity]. destruct (hasMember d m); split; reflexivity.
  - unfold updateMemberSchedule. destruct (_ =? _); split; reflexivity.
Qed.
Lemma step_pair : forall l c n p, Forall call_ok (l ++ [c]) -> same_keys c -> fits n -> pair_of (run l) n = Some p -> pair_of (run (l ++ [c])) n = Some p.
Proof.
  intros l c n p H S0 Fn E. apply Forall_app in H. destruct H as [H1 H2]. inversion H2 as [|? ? H3 _]; subst. destruct (run_ok l H1) as (R & St & K & _). rewrite run_snoc. rewrite <- E.
  destruct (plain c) eqn:P; [destruct (step_keys (run l) c P S0) as [E1 E2]; apply pair_same; assumption|].
  destruct c as [| | | | | | |us need q seed rs| |]; try discriminate P; [|reflexivity]. cbn [same_keys call_ok] in *. subst need. cbn [GmModel.step].
  destruct (calculateInterval orderS orderM (run l) q us) as [[i keys]|e] eqn:Ec.
  2: { unfold GmModel.getGroupKey. rewrite Ec. reflexivity. }
  destruct (iv_valid i) eqn:V. 2: { unfold GmModel.getGroupKey. rewrite Ec, V. reflexivity. }
  destruct (gk_eq (run l) (g_run l) us false q seed rs i keys R St H3 Ec V) as (sa & sb & _ & _ & _ & _ & F & ->). set (ekn := eKeyName _ _ _ _) in *.
  pose proof (take_ok generate derive keySize (run l) ekn false seed K F) as T. destruct (takePair (run l) ekn false seed) as [d' r] eqn:Et. cbn [fst]. destruct T as (_ & _ & _ & T4 & T5).
  destruct (name_dec n ekn) as [-> |Ne]; [|apply T4; assumption]. destruct r as [[pub priv]|e].
  - destruct T5 as (_ & _ & T5). rewrite E in T5. destruct T5 as [_ ->]. reflexivity.
  - unfold GmModel.takePair in Et. assert (Hh : hasEKey (run l) ekn = true) by (destruct (hasEKey (run l) ekn) eqn:X; [reflexivity|]; assert (pair_of (run l) ekn = None) by (apply pair_none; auto); congruence). rewrite Hh in Et. cbn [negb andb] in Et. injection Et as <- _. reflexivity.
Qed.
(** Without needRegenerate, a later request for the same interval gives the same key pair, as long
    as no other call regenerated it and the database was not opened again. *)
Theorem C80_same_pair : forall l us need q seed rs e ds l' us' q' seed' rs' e' ds',
  Forall call_ok (l ++ GroupKey us need q seed rs :: l' ++ [GroupKey us' false q' seed' rs']) ->
  good_slot (g_run l) us -> good_slot (g_run (l ++ GroupKey us need q seed rs :: l')) us' ->
  Forall same_keys l' ->
  snd (step (run l) (GroupKey us need q seed rs)) = Keys (e :: ds) ->
  snd (step (run (l ++ GroupKey us need q seed rs :: l')) (GroupKey us' false q' seed' rs')) = Keys (e' :: ds') ->
  p_name e = p_name e' ->
  p_content e = p_content e' /\ exists priv a b a' b',
    key_packets rsa_enc aes_enc prefix dataType hours (g_run l) us a b priv (p_content e) rs (e :: ds) /\
    key_packets rsa_enc aes_enc prefix dataType hours (g_run (l ++ GroupKey us need q seed rs :: l')) us' a' b' priv (p_content e') rs' (e' :: ds').
Proof.
  intros l us need q seed rs e ds l' us' q' seed' rs' e' ds' H Go Go' Sk A1 A2 En.
  apply Forall_app in H. destruct H as [H1 H2]. inversion H2 as [|? ? H3 H4]; subst. apply Forall_app in H4. destruct H4 as [H4 H5]. inversion H5 as [|? ? H6 _]; subst. cbn [call_ok] in H3, H6.
  set (c := GroupKey us need q seed rs) in *. set (l2 := l ++ c :: l') in *. assert (Ol2 : Forall call_ok l2) by (unfold l2; apply Forall_app; split; [exact H1|constructor; assumption]).
  destruct (run_ok l H1) as (R & St & K & _). destruct (run_ok l2 Ol2) as (R2 & St2 & K2 & _).
  destruct (gk_full l us need q seed rs H1 H3 Go) as (i & keys & _ & Cs). cbn [GmModel.step c] in A1.
  destruct Cs as [(_ & _ & Eq)|(_ & _ & _ & sa & sb & d' & r & _ & _ & Fe & Et & Ef & Es)]; [rewrite Eq in A1; discriminate A1|].
  assert (Rn : run (l ++ [c]) = d'). { rewrite run_snoc. cbn [GmModel.step c]. destruct (getGroupKey (run l) us need q seed rs); exact Ef. }
  destruct (getGroupKey (run l) us need q seed rs) as [d1 r1]. cbn [fst snd] in *. destruct r1 as [ps|x]; [|discriminate A1]. injection A1 as ->.
  destruct Es as (priv & pub & -> & Kp & e0 & ds0 & E0 & Nm & Ct). injection E0 as <- <-. pose proof (take_ok generate derive keySize (run l) _ need seed K Fe) as T. rewrite Et in T. destruct T as (_ & _ & _ & _ & _ & P1 & _).
  set (ekn := eKeyName prefix dataType (c_generic sa) (c_generic sb)) in *.
  assert (P2 : pair_of (run l2) ekn = Some (pub, priv)).
  { unfold l2. replace (l ++ c :: l') with ((l ++ [c]) ++ l') by (rewrite <- app_assoc; reflexivity).
    assert (Z : forall x, Forall call_ok x -> Forall same_keys x -> pair_of (run ((l ++ [c]) ++ x)) ekn = Some (pub, priv)); [|apply Z; assumption].
    induction x as [|y x IH] using rev_ind; intros Ox Sx; [rewrite app_nil_r, Rn; exact P1|]. apply Forall_app in Ox, Sx. destruct Ox as [Ox Oy], Sx as [Sx Sy]. inversion Sy as [|? ? Sy' _]; subst.
    rewrite app_assoc. apply step_pair; [|exact Sy'|exact Fe|apply IH; assumption]. rewrite !Forall_app. split; [split; [split; [exact H1|constructor; [exact H3|constructor]]|exact Ox]|exact Oy]. }
  destruct (gk_full l2 us' false q' seed' rs' Ol2 H6 Go') as (i' & keys' & _ & Cs'). cbn [GmModel.step] in A2.
  destruct Cs' as [(_ & _ & Eq)|(_ & _ & _ & sa' & sb' & d2 & r' & _ & _ & Fe' & Et' & Ef' & Es')]; [rewrite Eq in A2; discriminate A2|].
  destruct (getGroupKey (run l2) us' false q' seed' rs') as [d3 r3]. cbn [fst snd] in *. destruct r3 as [ps'|x]; [|discriminate A2]. injection A2 as ->.
  destruct Es' as (priv' & pub' & -> & Kp' & e1 & ds1 & E1 & Nm' & Ct'). injection E1 as <- <-. rewrite Nm, Nm' in En. rewrite <- En in *.
  pose proof (take_ok generate derive keySize (run l2) ekn false seed' K2 Fe) as T. rewrite Et' in T. destruct T as (_ & _ & _ & _ & _ & _ & T). rewrite P2 in T. destruct T as [T _]. injection T as <- <-.
  rewrite Ct, Ct'. split; [reflexivity|]. exists priv, (iv_start i), (iv_end i), (iv_start i'), (iv_end i'). auto.
Qed.

(** ** Findings *)
(** cleanEKeys always raises and removes nothing. *)
Theorem C80_clean_refuted : forall d, step d CleanEKeys = (d, Raised RuntimeError).
Proof. reflexivity. Qed.
(** updateMemberSchedule is documented to raise for an identity that is not a member; it answers
    as if it had changed something. *)
Theorem C80_unknown_member_refuted : forall l i sn, Forall call_ok l -> fits i -> g_member (g_run l) i = None -> g_sched (g_run l) sn <> None ->
  snd (step (run l) (UpdateMemberSchedule i sn)) = Done.
Proof.
  intros l i sn H Fi Gm Gs. rewrite (C80_answers l (UpdateMemberSchedule i sn)); [|apply Forall_app; split; [exact H|constructor; [exact Fi|constructor]]|reflexivity]. cbn [g_call]. destruct (g_sched (g_run l) sn); [rewrite Gm; reflexivity|congruence].
Qed.
(** After the database is opened again, the first request for an interval whose E-KEY it holds
    fails with KeyError, with or without needRegenerate. *)
Theorem C80_restart_refuted : forall l us need q seed rs e ds need' seed' rs' priv' pub',
  Forall call_ok l -> slot_range us -> good_slot (g_run l) us -> generate keySize seed' = Ok priv' -> derive priv' = Ok pub' ->
  snd (step (run l) (GroupKey us need q seed rs)) = Keys (e :: ds) ->
  snd (step (run (l ++ [GroupKey us need q seed rs; Restart])) (GroupKey us need' q seed' rs')) = Raised KeyError.
Proof.
  intros l us need q seed rs e ds need' seed' rs' priv' pub' H Sl Go Eg Ed A1. set (c := GroupKey us need q seed rs) in *.
  destruct (run_ok l H) as (R & St & K & _). destruct (gk_full l us need q seed rs H Sl Go) as (i & keys & Ec & Cs). cbn [GmModel.step c] in A1.
  destruct Cs as [(_ & _ & Eq)|(V & _ & _ & sa & sb & d' & r & (sa' & Ia & Ja & _) & (sb' & Ib & Jb & _) & Fe & Et & Ef & Es)]; [rewrite Eq in A1; discriminate A1|].
  injection Ja as <-. injection Jb as <-.
  pose proof (take_ok generate derive keySize (run l) _ need seed K Fe) as T. rewrite Et in T. destruct T as (Sm & K' & _ & _ & T).
  assert (Rn : run (l ++ [c]) = d'). { rewrite run_snoc. cbn [GmModel.step c]. destruct (getGroupKey (run l) us need q seed rs); exact Ef. }
  destruct (getGroupKey (run l) us need q seed rs) as [d1 r1]. cbn [fst snd] in *. destruct r1 as [ps|x]; [|discriminate A1]. injection A1 as ->. destruct Es as (priv & pub & -> & _). destruct T as (_ & P1 & _).
  replace (l ++ [c; Restart]) with ((l ++ [c]) ++ [Restart]) by (rewrite <- app_assoc; reflexivity). rewrite run_snoc, Rn. cbn [GmModel.step fst].
  set (ekn := eKeyName prefix dataType (c_generic sa) (c_generic sb)) in *. apply (pair_iff derive d' ekn pub priv K' Fe) in P1. destruct P1 as [P1 _].
  assert (Hh : hasEKey (reopen d') ekn = true) by (apply hasE_iff; exists pub; exact P1).
  assert (Ec' : calculateInterval orderS orderM (reopen d') q us = Ok (i, keys)).
  { rewrite <- Ec. destruct Sm as [S1 S2]. unfold calculateInterval, listAllScheduleNames. cbn [reopen db_sched]. rewrite S1.
    assert (Z : forall ns p n k, calcLoop orderM (reopen d') q us ns p n k = calcLoop orderM (run l) q us ns p n k); [|rewrite Z; reflexivity].
    induction ns as [|x ns IH]; intros p n k; [reflexivity|]. cbn [calcLoop]. unfold getSchedule, getScheduleMembers. cbn [reopen db_sched db_mem]. rewrite S1, S2. destruct (match find (s_is x) (db_sched (run l)) with Some _ => _ | None => _ end) as [sc|er]; [|reflexivity]. cbn [rbind].
    destruct (sc_getCoveringInterval sc us) as [[bb tt0]|er]; [|reflexivity]. cbn [rbind]. destruct bb; (destruct (iv_intersectWith _ tt0) as [p1|er]; [|reflexivity]); cbn [rbind]; [|apply IH]. destruct (memberDict _ _) as [mm|er]; [|reflexivity]. cbn [rbind]. apply IH. }
  destruct (run_ok (l ++ [c; Restart])) as (R3 & St3 & K3 & _). { apply Forall_app. split; [exact H|]. constructor; [exact Sl|]. constructor; [exact I|constructor]. }
  assert (Rr : run (l ++ [c; Restart]) = reopen d'). { replace (l ++ [c; Restart]) with ((l ++ [c]) ++ [Restart]) by (rewrite <- app_assoc; reflexivity). rewrite run_snoc, Rn. reflexivity. }
  rewrite Rr in R3. destruct (gk_eq (reopen d') _ us need' q seed' rs' i keys R3 St3 Sl Ec' V) as (ua & ub & U1 & _ & U2 & _ & _ & ->).
  assert (ua = sa) by congruence. assert (ub = sb) by congruence. subst ua ub. fold ekn. unfold GmModel.takePair, generateKeyPair. rewrite Hh, Eg. cbn [rbind]. rewrite Ed. cbn [rbind].
  destruct need'; cbn [negb andb].
  - unfold deleteEKey. cbn [reopen db_base]. reflexivity.
  - unfold getEKey. destruct (find (e_is ekn) (db_ekeys (reopen d'))) as [row|] eqn:Ff; [reflexivity|]. rewrite find_none_iff in Ff. specialize (Ff _ P1). assert (e_is ekn (encodeName ekn, pub) = true) by (apply e_is_iff; reflexivity). congruence.
Qed.
End Gm.

(** ** A concrete group *)
(** Two schedules, three members, a member who moves; keys "priv seed" and toy ciphers: RSA takes
    at most 4 bytes *)
Definition x_rsa (k m : bytes) (alg pad : Z) : rsa_out := if zlen m <=? 4 then Sealed (k ++ [pad mod 256] ++ m) else if zlen m =? 16 then Sealed (k ++ [pad mod 256; 255] ++ m) else TooLong.
Definition x_aes (k m : bytes) (alg : Z) (iv : bytes) : res bytes := Ok (k ++ iv ++ m).
Definition x_gen (size seed : Z) : res bytes := Ok [112; seed mod 256; 1; 2; 3; 4].
Definition x_der (p : bytes) : res bytes := Ok (80 :: p).
Definition x_p : name := [c_generic [112]].
Definition x_t : name := [c_generic [116]].
Definition x_s1 : str := [97].
Definition x_s2 : str := [98].
Definition x_key (c : Z) : name := [c_generic [c]; c_generic [75]].
Definition x_rs (n : name) : rnd := Rnd (zlen n) 7 (repeat 9 16) (repeat 8 16).
Definition x_sched2 : sched := sc_run [AddWhite ex_weekly].
Definition x_us : Z := 1000 * (ex_day + 7 * DAY + 8 * HOUR + 1800000).
Definition x_h : list call :=
  [AddSchedule x_s1 ex_sched; AddSchedule x_s2 x_sched2; AddMember x_s1 (x_key 4) [40]; AddMember x_s2 (x_key 3) [30]; AddMember x_s2 (x_key 2) [20];
   AddMember x_s1 (x_key 2) [21]; UpdateMemberSchedule [c_generic [2]] x_s1; RemoveMember [c_generic [4]]].
Notation x_run := (GmModel.run x_rsa x_aes x_gen x_der (fun _ l => l) (fun _ l => rev l) x_p x_t 2048 1).
Notation x_step := (GmModel.step x_rsa x_aes x_gen x_der (fun _ l => l) (fun _ l => rev l) x_p x_t 2048 1).
Ltac x_names := repeat (apply Forall_cons; [apply gen_ok; reflexivity|]); apply Forall_nil.
Lemma x_fits : forall n, name_ok n -> (zlen (encodeName n) <? 2 ^ 63) = true -> fits n.
Proof. intros n H L. split; [exact H|]. apply Z.ltb_lt in L. lia. Qed.
Example C80_ex_space : space_ok x_p x_t.
Proof. split; [x_names|]. split; [x_names|]. vm_compute. reflexivity. Qed.
Example C80_ex_ok : Forall call_ok (x_h ++ [GroupKey x_us false 0 5 x_rs]).
Proof.
  pose proof C48_ex1 as W. inversion W as [|? ? W1 W']; inversion W' as [|? ? W2 W'']; inversion W'' as [|? ? W3 _]; subst.
  assert (S1 : storable ex_sched). { exists [AddWhite ex_monthly; AddWhite ex_weekly; AddBlack ex_black; AddWhite ex_weekly]. split; [reflexivity|]. split; [|intros w E; destruct C48_ex2 as (w' & E' & L & _); rewrite E' in E; injection E as <-; rewrite L; lia].
    intros r [[[= <-]|[[= <-]|[E|[[= <-]|[]]]]]|[E|[E|[[= <-]|[E|[]]]]]]; try discriminate E; assumption. }
  assert (S2 : storable x_sched2). { exists [AddWhite ex_weekly]. split; [reflexivity|]. split; [intros r [[[= <-]|[]]|[E|[]]]; [assumption|discriminate E]|]. intros w E. assert (X : match sc_wireEncode x_sched2 with Ok w => zlen w <? 1000 | Err _ => false end = true) by (vm_compute; reflexivity). rewrite E in X. apply Z.ltb_lt in X. lia. }
  unfold x_h. cbn [app]. repeat apply Forall_cons; try apply Forall_nil; cbn [call_ok]; try assumption; try (split; [discriminate|]); try (apply x_fits; [x_names|vm_compute; reflexivity]). vm_compute. reflexivity.
Qed.
Example C80_ex_slot : good_slot (g_run x_h) x_us.
Proof.
  pose proof C39_ex4 as [X Y]. cbv zeta in X, Y. split; [exact X|]. intros n s H.
  assert (E : s = ex_sched \/ s = x_sched2).
  { assert (Z : forall g n0 s0, g_sched (g_step g (AddSchedule n0 s0)) n = Some s -> s = s0 \/ g_sched g n = Some s).
    { intros g n0 s0. unfold g_step. cbn [g_call]. destruct n0; [auto|]. destruct (g_sched g _) eqn:G; [auto|]. cbn [g_sched]. unfold put_sched. destruct (str_dec n _); [intros [= <-]; auto|auto]. }
    assert (Y' : forall g c, match c with AddMember _ _ _ | UpdateMemberSchedule _ _ | RemoveMember _ => True | _ => False end -> g_sched (g_step g c) n = g_sched g n).
    { intros g c. destruct c as [| | | |sn kn k|i sn|i| | |]; intros []; unfold g_step; cbn [g_call]; [destruct (g_sched g sn), (g_member g (identity_of kn))|destruct (g_sched g sn), (g_member g i) as [[[? ?] ?]|]|]; reflexivity. }
    unfold x_h, g_run in H. cbn [fold_left] in H. rewrite !Y' in H by exact I. apply Z in H. destruct H as [H|H]; [auto|]. apply Z in H. destruct H as [H|H]; [auto|discriminate H]. }
  assert (F : forall r, In r (sc_white s) \/ In r (sc_black s) -> In r (sc_white ex_sched) \/ In r (sc_black ex_sched)).
  { destruct E as [-> | ->]; [auto|]. intros r [H'|H']; [|replace (sc_black x_sched2) with (@nil ri) in H' by reflexivity; destruct H']. left. replace (sc_white x_sched2) with [ex_weekly] in H' by reflexivity. replace (sc_white ex_sched) with [ex_weekly; ex_monthly] by reflexivity. destruct H' as [<- |[]]. left. reflexivity. }
  split; [apply Forall_forall; intros r I; apply Y, F; auto|]. split; [apply Forall_forall; intros r I; apply Y, F; auto|]. intros r I. apply Y, F, I.
Qed.
(** Two members may read; both get the private key, and the interval ends at 9:00. *)
Example C80_ex_keys : exists e d2 d3, snd (x_step (x_run x_h) (GroupKey x_us false 0 5 x_rs)) = Keys [e; d2; d3] /\ p_content e = [80; 112; 5; 1; 2; 3; 4] /\
  toIsoString (ex_day + 7 * DAY + 9 * HOUR) = Ok (c_value (last (p_name e) (c_generic []))).
Proof. vm_compute. eexists _, _, _. split; [reflexivity|]. split; reflexivity. Qed.

Print Assumptions C80_history.
Print Assumptions C80_answers.
Print Assumptions C80_group_key.
Print Assumptions C80_same_pair.
Print Assumptions C80_clean_refuted.
Print Assumptions C80_unknown_member_refuted.
Print Assumptions C80_restart_refuted.
