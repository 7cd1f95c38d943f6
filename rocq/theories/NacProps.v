(** * Properties C73 and C74: DecryptorV2 *)
From Verif Require Import Base BaseLemmas NameModel NameSpec NameProofs DictModel DictProofs CertProofs WireModel CtlModel HierModel HierProps PibModel PibSpec PibProps FrontModel FrontProofs5 BagModel ChainModel CmdProps MatchProps NameProps NacModel NacSpec NacProofs NacProofs2 NacProofs3.

Section N.
Variable P : Type.
Variable psign : Z -> P -> bytes -> bytes.
Variable pverify : bytes -> bytes -> bytes -> res bool.
Variable ktype : bytes -> res Z.
Variable load : bytes -> option bytes -> res P.
Variable ord : list name -> list name.
Variable pdec : P -> bytes -> res bytes.
Variable cbc_inv : bytes -> bytes -> bytes -> res bytes.
Variable credentials : name.
Notation dstate := (dstate P).
Notation do_decrypt := (do_decrypt cbc_inv).
Notation d_step := (d_step P psign pverify ktype load ord pdec cbc_inv credentials).
Notation d_run := (d_run P psign pverify ktype load ord pdec cbc_inv credentials).
Notation done := (done P cbc_inv credentials).
Notation inv := (inv P cbc_inv).
(** The internal KeyChain is new. *)
Variable chain : kstate P.
Hypothesis Hchain : k_tpm chain = Tpm [] [].
Notation after l := (d_run (d_new chain) l).
Notation outs l := (d_out (d_run (d_new chain) l)).
Lemma no_keys : forall k p, ~ holds P chain k p. Proof. intros k p (k0 & I & _). unfold stored in I. rewrite Hchain in I. destruct I. Qed.
Let inv_of l (Pr : proper l) : inv l (after l) := run_inv P psign pverify ktype load ord pdec cbc_inv credentials l chain Pr.

(** ** C73: the answers *)
(** No request has two answers. *)
Theorem C73_at_most_once : forall l, proper l -> NoDup (map fst (answers (outs l))).
Proof. intros l Pr. apply (inv_of l Pr). Qed.
(** Only requests have answers, and a request without a CK name or an initial vector has an error. *)
Theorem C73_only_requests : forall l, proper l -> (forall r, answered (outs l) r -> In r (map fst (requests l))) /\ (forall r e, In (r, e) (requests l) -> usable e = false -> failed (outs l) r).
Proof. intros l Pr. split; [apply (i_req _ _ _ _ (inv_of l Pr))|apply (i_bad _ _ _ _ (inv_of l Pr))]. Qed.
Lemma ask_valid : forall l k q, proper l -> In q (asks l k) -> nval k.
Proof. intros l k [r e] (_ & _ & _ & Hv) J. apply asks_in in J. destruct J as (J & _ & <-). apply (Hv _ _ J). Qed.
Lemma wait_phase : forall l k, proper l -> nval k -> (waiting (after l) k <-> exists c, dget n_equals (d_keys (after l)) k = Some c /\ ck_bits c = None /\ 0 < ck_pending c).
Proof.
  intros l k Pr Vk. pose proof (inv_of l Pr) as I. split.
  - intros (id & p & J & E). pose proof (pos_id P cbc_inv l _ id p I Pr J) as Ps. destruct (i_pk _ _ _ _ I _ _ J) as (V & c & Ec & Ei). rewrite E in Ec. exists c. split; [exact Ec|]. pose proof (i_ck _ _ _ _ I k Vk) as K. unfold KI in K. rewrite Ec in K. destruct (ck_bits c); [lia|]. split; [reflexivity|lia].
  - intros (c & Ec & Eb & L). pose proof (i_ck _ _ _ _ I k Vk) as K. unfold KI in K. rewrite Ec, Eb in K. destruct K as [(p & K1 & K2 & K3 & _)|[K1 _]]; [|lia]. exists (ck_pending c), p. auto.
Qed.
(** While the decryptor waits for a CK, no request for it is answered yet; if it does not wait, the
    first request for it is answered, and a request without an answer comes after one with an error. *)
Theorem C73_waiting : forall l k q, proper l -> waiting (after l) k -> In q (asks l k) -> ~ answered (outs l) (fst q).
Proof.
  intros l k q Pr W J. pose proof (ask_valid l k q Pr J) as Vk. apply (wait_phase l k Pr Vk) in W. destruct W as (c & Ec & Eb & L). pose proof (i_ck _ _ _ _ (inv_of l Pr) k Vk) as K. unfold KI in K. rewrite Ec, Eb in K. destruct K as [(p & _ & _ & _ & _ & _ & K7)|[K1 _]]; [apply K7, J|lia].
Qed.
Theorem C73_first : forall l k q t, proper l -> asks l k = q :: t -> waiting (after l) k \/ answered (outs l) (fst q).
Proof.
  intros l k q t Pr E. assert (J : In q (asks l k)) by (rewrite E; left; reflexivity). pose proof (ask_valid l k q Pr J) as Vk. pose proof (i_ck _ _ _ _ (inv_of l Pr) k Vk) as K. unfold KI in K. destruct (dget n_equals (d_keys (after l)) k) as [c|]; [|congruence]. destruct (ck_bits c) as [bits|].
  - right. destruct K as (_ & _ & _ & K). eexists. apply K, J.
  - destruct K as [(p & K1 & K2 & K3 & _)|(K1 & qa & qb & K2 & K3 & K4 & _)]; [left; exists (ck_pending c), p; auto|right]. destruct qa as [|q0 qa]; [congruence|]. rewrite E in K2. injection K2 as <- _. apply failed_answered, K4. left. reflexivity.
Qed.
Theorem C73_unanswered : forall l k q q0 t, proper l -> In q (asks l k) -> ~ answered (outs l) (fst q) -> asks l k = q0 :: t -> waiting (after l) k \/ failed (outs l) (fst q0).
Proof.
  intros l k q q0 t Pr J N E. pose proof (ask_valid l k q Pr J) as Vk. pose proof (i_ck _ _ _ _ (inv_of l Pr) k Vk) as K. unfold KI in K. destruct (dget n_equals (d_keys (after l)) k) as [c|]; [|congruence]. destruct (ck_bits c) as [bits|].
  - exfalso. apply N. destruct K as (_ & _ & _ & K). eexists. apply K, J.
  - destruct K as [(p & K1 & K2 & K3 & _)|(K1 & qa & qb & K2 & K3 & K4 & _)]; [left; exists (ck_pending c), p; auto|right]. destruct qa as [|q1 qa]; [congruence|]. rewrite E in K2. injection K2 as <- _. apply K4. left. reflexivity.
Qed.
(** If one request for a CK succeeds, all requests for it have answers. *)
Theorem C73_all : forall l k q m, proper l -> In q (asks l k) -> In (fst q, Success m) (answers (outs l)) -> forall q', In q' (asks l k) -> answered (outs l) (fst q').
Proof.
  intros l k q m Pr J A q' J'. pose proof (ask_valid l k q Pr J) as Vk. pose proof (inv_of l Pr) as I. pose proof (i_ck _ _ _ _ I k Vk) as K. unfold KI in K. destruct (dget n_equals (d_keys (after l)) k) as [c|]; [|rewrite K in J; destruct J]. destruct (ck_bits c) as [bits|].
  - destruct K as (_ & _ & _ & K). eexists. apply K, J'.
  - exfalso. destruct K as [(p & _ & _ & _ & _ & _ & K7)|(K1 & qa & qb & K2 & K3 & K4 & K5)]; [apply (K7 q J); eexists; exact A|]. rewrite K2 in J. apply in_app_or in J. destruct J as [J|J]; [|apply (K5 q J); eexists; exact A]. destruct (K4 q J) as [code F]. pose proof (i_once _ _ _ _ I) as N. clear - N A F. induction (answers (outs l)) as [|[r o] u IH]; [destruct A|]. cbn in N. inversion N; subst. destruct A as [A|A], F as [F|F].
    + congruence.
    + injection A as -> ->. apply H1. apply (in_map fst) in F. exact F.
    + injection F as -> ->. apply H1. apply (in_map fst) in A. exact A.
    + auto.
Qed.
(** After shutdown the Face has no Interest of the decryptor, and the requests that were waiting have
    an error. *)
Theorem C73_shutdown : forall l, proper l -> d_pend (after (l ++ [EShutdown])) = [] /\ forall k q, waiting (after l) k -> In q (asks l k) -> answered (outs (l ++ [EShutdown])) (fst q).
Proof.
  intros l Pr. pose proof (inv_of l Pr) as I. assert (Pr' : proper (l ++ [EShutdown])) by (unfold proper; rewrite requests_app, ids_app, !app_nil_r; exact Pr).
  assert (E : after (l ++ [EShutdown]) = fst (d_step EShutdown (after l))) by (unfold NacModel.d_run; rewrite fold_left_app; reflexivity). destruct (step_shutdown P psign pverify ktype load ord pdec cbc_inv credentials l _ I Pr) as [I' En]. rewrite E. split; [exact En|]. intros k q W J.
  pose proof (ask_valid l k q Pr J) as Vk. apply (wait_phase l k Pr Vk) in W. destruct W as (c & Ec & Eb & L). rewrite <- E. unfold NacModel.d_step, shutdown, bind, get in *. rewrite shutdown_ok in *. cbn [fst] in *. rewrite E in *. clear E.
  assert (Jk : In k (dkeys (d_keys (after l)))) by (apply (dget_some_key n_equals nval Heqn _ _ c); [apply I|exact Vk|exact Ec]).
  assert (V : Forall nval (dkeys (d_keys (after l)))). { apply Forall_forall. intros k' X. apply in_map_iff in X. destruct X as ([k2 c2] & <- & X). pose proof (i_dom _ _ _ _ I) as D. unfold dom in D. rewrite Forall_forall in D. apply (D _ X). }
  assert (Q : In q (ck_queue c)). { pose proof (i_ck _ _ _ _ I k Vk) as K. unfold KI in K. rewrite Ec, Eb in K. destruct K as [(p & _ & _ & _ & _ & K6 & _)|[K1 _]]; [rewrite K6; exact J|lia]. }
  pose proof (i_uniq _ _ _ _ I) as U. unfold uniq in U. pose proof (i_dom _ _ _ _ I) as Dm. clear - Jk V Q U Ec L Vk Dm. set (s := after l) in *. clearbody s. revert s Jk V U Ec Dm Q.
  assert (Mono : forall ks (s : dstate) r, answered (d_out s) r -> answered (d_out (fold_left (shut P) ks s)) r).
  { induction ks as [|k' ks IH]; intros s r A; [exact A|]. cbn [fold_left]. apply IH. unfold shut. cbv zeta. destruct (0 <? _); [|exact A]. apply answered_app. left. exact A. }
  intros s Jk V U Ec Dm Q. revert Jk V U. generalize (dkeys (d_keys s)) as ks. intros ks. revert s Ec Dm Q. induction ks as [|k' ks IH]; intros s Ec Dm Q Jk V U; [destruct Jk|]. cbn [fold_left]. inversion V as [|? ? V1 V2]; subst. inversion U as [|? ? U1 U2]; subst. destruct (name_dec k' k) as [->|Nk].
  - apply Mono. unfold shut. cbv zeta. unfold ck. rewrite Ec. replace (0 <? ck_pending c) with true by lia. apply answered_app. right. exists (Failure E_CkRetrievalFailure). cbn [d_out]. clear - Q. induction (ck_queue c) as [|a u IH]; [destruct Q|]. destruct Q as [-> |Q]; [left; reflexivity|right; apply IH, Q].
  - destruct Jk as [Jk|Jk]; [contradiction|]. apply IH; auto.
    + unfold shut. cbv zeta. destruct (0 <? _); [|exact Ec]. cbn [d_keys]. rewrite (dset_get n_equals nval Heqn) by auto. rewrite equals_dec by auto. destruct (name_dec k' k); [contradiction|exact Ec].
    + unfold shut. cbv zeta. destruct (0 <? _); [|exact Dm]. cbn [d_keys]. apply (dset_dom n_equals nval); auto.
Qed.
(** For each CK there are at most six Interests. *)
Theorem C73_interests : forall l names, proper l -> (forall r e, In (r, e) (requests l) -> In (ck_of e) names) -> zlen (sends (outs l)) <= 6 * zlen names.
Proof.
  intros l names Pr Hn. pose proof (run_count P psign pverify ktype load ord pdec cbc_inv credentials l chain no_keys Pr) as C. pose proof (inv_of l Pr) as I. pose proof (run_sound P psign pverify ktype load ord pdec cbc_inv credentials l chain no_keys Pr) as S.
  assert (T : 0 <= total (d_pend (after l))). { pose proof (s_pend _ _ _ _ _ _ _ S) as Hp. clear - Hp. induction (d_pend (after l)) as [|[id p] d IH]; [cbn; lia|]. cbn [total]. pose proof (pot_pos _ _ (Hp id p (or_introl eq_refl))). assert (0 <= total d); [|lia]. apply IH. intros id' p' J. apply (Hp id' p'). right. exact J. }
  assert (L : zlen (d_keys (after l)) <= zlen names).
  { assert (length (dkeys (d_keys (after l))) <= length names)%nat; [|unfold zlen, dkeys in *; rewrite map_length in *; lia]. apply NoDup_incl_length; [apply I|]. intros k J. pose proof (i_dom _ _ _ _ I) as D. unfold dom in D. rewrite Forall_forall in D. pose proof J as J0. apply in_map_iff in J0. destruct J0 as ([k' c] & Ek & J0). cbn in Ek. subst k'. pose proof (D _ J0) as Vk. cbn in Vk.
    pose proof (i_ck _ _ _ _ I k Vk) as K. unfold KI in K. rewrite (in_dget n_equals nval Heqn _ _ _ (i_dom _ _ _ _ I) (i_uniq _ _ _ _ I) J0) in K. assert (X : asks l k <> []). { destruct (ck_bits c); [apply K|]. destruct K as [(p & _ & _ & _ & (q & t & K4 & _) & _)|(_ & qa & qb & K2 & K3 & _)]; [rewrite K4; discriminate|rewrite K2; destruct qa; [congruence|discriminate]]. }
    destruct (asks l k) as [|[r e] t] eqn:Ea; [congruence|]. assert (Y : In (r, e) (asks l k)) by (rewrite Ea; left; reflexivity). apply asks_in in Y. destruct Y as (Y & _ & <-). apply (Hn _ _ Y). }
  unfold count in C. lia.
Qed.

(** A CK that was given up is never tried again: a request for it without an answer never has one, and
    no later request for it has one. *)
Lemma done_answers : forall (s : dstate) k r x N got (next : pend -> Prop) s' y, done s k r x N got next s' -> answered (d_out s') y -> answered (d_out s) y \/ y = r \/ In y (map fst (ck_queue (ck P s k))).
Proof.
  intros s k r x N got next s' y D A. destruct D as [chain' code Gr|id p n cp mf chain' Ex Hp Hs Gr|bits chain' Hb Gr]; cbn [d_out] in A; apply answered_app in A; destruct A as [A|[o A]]; auto.
  - destruct A as [A|[]]. injection A as A _. auto.
  - destruct A.
  - right. right. apply (in_map fst) in A. rewrite map_fst_pend in A. exact A.
Qed.
Lemma done_keys : forall (s : dstate) k r x N got (next : pend -> Prop) s' k', done s k r x N got next s' -> dom nval (d_keys s) -> nval k -> nval k' -> k <> k' -> dget n_equals (d_keys s') k' = dget n_equals (d_keys s) k'.
Proof. intros s k r x N got next s' k' D Dm V V' Nk. destruct D; cbn [d_keys]; [reflexivity| |]; rewrite (dset_get n_equals nval Heqn), equals_dec by auto; destruct (name_dec k k'); congruence. Qed.
Definition dead (s : dstate) (k : name) : Prop := exists c, dget n_equals (d_keys s) k = Some c /\ ck_bits c = None /\ ck_pending c = 0.
Lemma dead_step : forall l o s k, inv l s -> proper (l ++ [o]) -> nval k -> dead s k -> dead (fst (d_step o s)) k /\ forall q, In q (asks (l ++ [o]) k) -> answered (d_out (fst (d_step o s))) (fst q) -> answered (d_out s) (fst q).
Proof.
  intros l o s k I Pr Vk (c & Ec & Eb & Ep). pose proof Pr as (Nr & _ & _ & Hv).
  assert (Dis : forall k' q y, k' <> k -> In q (asks (l ++ [o]) k) -> In y (map fst (asks (l ++ [o]) k')) -> fst q <> y). { intros k' [r e] y Nk J J' E. cbn in E. subst y. apply Nk. symmetry. apply (ask_key _ _ _ _ _ Nr J J'). }
  assert (Ev : forall id, about o = Some id -> dead (fst (d_step o s)) k /\ forall q, In q (asks (l ++ [o]) k) -> answered (d_out (fst (d_step o s))) (fst q) -> answered (d_out s) (fst q)).
  { intros id A. assert (R : requests [o] = []) by (destruct o; try discriminate A; reflexivity). destruct (dget Z.eqb (d_pend s) id) as [p|] eqn:Eg; [|rewrite (about_none P psign pverify ktype load ord pdec cbc_inv credentials o id s A Eg); split; [exists c; auto|auto]].
    destruct (about_some P psign pverify ktype load ord pdec cbc_inv credentials o id s p A Eg) as (s' & E & D). rewrite E. cbn [fst]. assert (J : In (id, p) (d_pend s)) by (apply (dget_in Z.eqb (fun _ => True) zeq); [apply zdom|exact Logic.I|exact Eg]). destruct (i_pk _ _ _ _ I _ _ J) as (Vp & c' & Ec' & Ei). pose proof (pos_id P cbc_inv l s id p I (proper_app _ _ Pr) J) as Ps.
    assert (Nk : pend_ck p <> k) by (intros X; rewrite X, Ec in Ec'; injection Ec' as <-; lia). assert (Dm : dom nval (d_keys (begin_handler P s id (pend_ck p)))) by (cbn [begin_handler d_keys]; apply (dset_dom n_equals nval); [apply I|exact Vp]). split.
    - exists c. rewrite (done_keys _ _ _ _ _ _ _ _ k D Dm Vp Vk Nk). cbn [begin_handler d_keys]. rewrite (dset_get n_equals nval Heqn) by (auto; apply I). rewrite equals_dec by auto. destruct (name_dec (pend_ck p) k); [contradiction|auto].
    - intros q Q X. pose proof (i_ck _ _ _ _ I _ Vp) as K. unfold KI in K. rewrite Ec' in K. destruct (ck_bits c') as [bits|] eqn:Eb'; [lia|]. destruct K as [(p' & K1 & K2 & K3 & (q0 & t & K4 & K5) & K6 & K7)|[K1 _]]; [|lia]. rewrite Ei in K2. assert (p' = p). { pose proof (in_dget Z.eqb (fun _ => True) zeq (d_pend s) id p' (zdom _ _) (i_pend _ _ _ _ I) K2). congruence. } subst p'.
      assert (Ea : asks (l ++ [o]) (pend_ck p) = asks l (pend_ck p)) by (rewrite asks_app; unfold asks at 2; rewrite R; apply app_nil_r).
      destruct (done_answers _ _ _ _ _ _ _ _ _ D X) as [Y|[Y|Y]]; [exact Y| |]; exfalso; apply (Dis (pend_ck p) q (fst q) Nk Q); auto.
      + rewrite Ea, K4, Y, <- K5. left. reflexivity.
      + unfold begin_handler, ck in Y. cbn [d_keys] in Y. rewrite dget_dset in Y by apply eq_refl_n. cbn [ck_queue] in Y. rewrite Ec', K6 in Y. rewrite Ea. exact Y. }
  destruct o as [r e x|id d cred rnd x|id x|id|]; [|apply (Ev id eq_refl)|apply (Ev id eq_refl)|apply (Ev id eq_refl)|].
  - set (o := EDecrypt r e x) in *. clear Ev. assert (Rq : In (r, e) (requests (l ++ [o]))) by (rewrite requests_app; apply in_or_app; right; left; reflexivity). destruct (usable e) eqn:U.
    + pose proof (usable_step P psign pverify ktype load ord pdec cbc_inv credentials r e x s U) as E. cbv zeta in E. change (EDecrypt r e x) with o in E. set (k' := ck_of e) in *. assert (Vk' : nval k') by (apply (Hv r e), Rq). assert (Ask : In (r, e) (asks (l ++ [o]) k')) by (apply asks_in; auto).
      destruct (name_dec k' k) as [Ek|Nk].
      * rewrite Ek, Ec, Eb in E. rewrite E. cbn [fst d_keys d_out]. split; [|auto]. eexists. split; [apply dget_dset, eq_refl_n|]. cbn. auto.
      * destruct (dget n_equals (d_keys s) k') as [c0|] eqn:Eg; [destruct (ck_bits c0) as [bits|] eqn:Eb0|].
        -- rewrite E. cbn [fst d_keys d_out]. split; [exists c; auto|]. intros q Q A. apply answered_app in A. destruct A as [A|[o' [A|[]]]]; [exact A|]. exfalso. injection A as A _. apply (Dis k' q (fst q) Nk Q); [|reflexivity]. rewrite <- A. apply (in_map fst) in Ask. exact Ask.
        -- rewrite E. cbn [fst d_keys d_out]. split; [|auto]. exists c. cbn [d_keys]. rewrite (dset_get n_equals nval Heqn) by (auto; apply I). rewrite equals_dec by auto. destruct (name_dec k' k); [contradiction|auto].
        -- destruct E as (s' & E & D). rewrite E. cbn [fst]. assert (Dm : dom nval (dset n_equals (d_keys s) k' (CKey None 0 [(r, e)]))) by (apply (dset_dom n_equals nval); [apply I|exact Vk']). split.
           ++ exists c. rewrite (done_keys _ _ _ _ _ _ _ _ k D Dm Vk' Vk Nk). cbn [d_keys]. rewrite (dset_get n_equals nval Heqn) by (auto; apply I). rewrite equals_dec by auto. destruct (name_dec k' k); [contradiction|auto].
           ++ intros q Q A. destruct (done_answers _ _ _ _ _ _ _ _ _ D A) as [Y|[Y|Y]]; [exact Y| |]; exfalso; apply (Dis k' q r Nk Q); auto; try (apply (in_map fst) in Ask; exact Ask). unfold ck in Y. cbn [d_keys] in Y. rewrite dget_dset in Y by apply eq_refl_n. destruct Y as [Y|[]]. auto.
    + destruct (unusable_step P psign pverify ktype load ord pdec cbc_inv credentials r e x s U) as [code E]. change (EDecrypt r e x) with o in E. rewrite E. cbn [fst d_keys d_out]. split; [exists c; auto|]. intros [r' e'] Q A. apply answered_app in A. destruct A as [A|[o' [A|[]]]]; [exact A|]. exfalso. injection A as <- _. apply asks_in in Q. destruct Q as (Q & U' & _). rewrite (request_unique _ _ _ _ Nr Rq Q) in U. cbn in U'. congruence.
  - clear Ev. unfold NacModel.d_step, shutdown, bind, get. rewrite shutdown_ok. cbn [fst]. assert (Ea : forall k, asks (l ++ [EShutdown]) k = asks l k) by (intros k'; rewrite asks_app; apply app_nil_r). rewrite Ea. assert (Pl : proper l) by apply (proper_app _ _ Pr).
    assert (V : Forall nval (dkeys (d_keys s))). { apply Forall_forall. intros k' J. apply in_map_iff in J. destruct J as ([k2 c2] & <- & J). pose proof (i_dom _ _ _ _ I) as D. unfold dom in D. rewrite Forall_forall in D. apply (D _ J). }
    assert (H : dead (fold_left (shut P) (dkeys (d_keys s)) s) k /\ (forall q, In q (asks l k) -> answered (d_out (fold_left (shut P) (dkeys (d_keys s)) s)) (fst q) -> answered (d_out s) (fst q))); [|exact H].
    assert (H0 : dead s k) by (exists c; auto). clear Ec Eb Ep Dis Ea. revert V. generalize (dkeys (d_keys s)) as ks. intros ks. revert s I H0. induction ks as [|k' ks IH]; intros s I H0 V; [split; [exact H0|auto]|]. inversion V as [|? ? V1 V2]; subst. cbn [fold_left]. destruct (shut_inv P cbc_inv l k' s I Pl V1) as (I' & _).
    destruct H0 as (c0 & Ec & Eb & Ep). assert (H1 : dead (shut P s k') k /\ (forall q, In q (asks l k) -> answered (d_out (shut P s k')) (fst q) -> answered (d_out s) (fst q))).
    { unfold shut. cbv zeta. destruct (0 <? ck_pending (ck P s k')) eqn:L; [|split; [exists c0; auto|auto]]. assert (Nk : k' <> k). { intros ->. unfold ck in L. rewrite Ec in L. lia. } split.
      - exists c0. cbn [d_keys]. rewrite (dset_get n_equals nval Heqn) by (auto; apply I). rewrite equals_dec by auto. destruct (name_dec k' k); [contradiction|auto].
      - intros [r e] Q A. cbn [d_out] in A. apply answered_app in A. destruct A as [A|[o' A]]; [exact A|]. exfalso. apply (in_map fst) in A. rewrite map_fst_pend in A. unfold ck in A, L. destruct (dget n_equals (d_keys s) k') as [c1|] eqn:E1; [|destruct A]. pose proof (i_ck _ _ _ _ I k' V1) as K. unfold KI in K. rewrite E1 in K. destruct (ck_bits c1) as [bits|]; [destruct K as (K & _); rewrite K in A; destruct A|]. destruct K as [(p & _ & _ & _ & _ & K6 & _)|[K1 _]]; [|lia]. rewrite K6 in A. apply Nk. symmetry. destruct Pl as (Nl & _). apply (ask_key _ _ _ _ _ Nl Q A). }
    destruct H1 as [H1 H2]. destruct (IH _ I' H1 V2) as [H3 H4]. split; [exact H3|]. intros q Q A. apply H2; auto.
Qed.
Theorem C73_stuck : forall l l' k q, proper (l ++ l') -> In q (asks l k) -> ~ answered (outs l) (fst q) -> ~ waiting (after l) k ->
  ~ answered (outs (l ++ l')) (fst q) /\ forall q', In q' (asks l' k) -> ~ answered (outs (l ++ l')) (fst q').
Proof.
  intros l l' k q Pr J Na Nw. pose proof (proper_app _ _ Pr) as Pl. pose proof (ask_valid l k q Pl J) as Vk.
  assert (Hd : dead (after l) k). { pose proof (i_ck _ _ _ _ (inv_of l Pl) k Vk) as K. unfold KI in K. destruct (dget n_equals (d_keys (after l)) k) as [c|] eqn:Ec; [|rewrite K in J; destruct J]. exists c. split; [exact Ec|]. destruct (ck_bits c) as [bits|]; [exfalso; apply Na; destruct K as (_ & _ & _ & K); eexists; apply K, J|]. split; [reflexivity|]. destruct K as [(p & K1 & K2 & K3 & _)|[K1 _]]; [|exact K1]. exfalso. apply Nw. exists (ck_pending c), p. auto. }
  assert (H : dead (after (l ++ l')) k /\ ~ answered (outs (l ++ l')) (fst q) /\ forall q', In q' (asks l' k) -> ~ answered (outs (l ++ l')) (fst q')); [|apply H].
  induction l' as [|o l' IH] using rev_ind; [rewrite app_nil_r; split; [exact Hd|]; split; [exact Na|intros q' []]|]. rewrite app_assoc in *. destruct (IH (proper_app _ _ Pr)) as (D & A1 & A2). pose proof (inv_of _ (proper_app _ _ Pr)) as I.
  assert (E : after ((l ++ l') ++ [o]) = fst (d_step o (after (l ++ l')))) by (unfold NacModel.d_run; rewrite (fold_left_app _ (l ++ l')); reflexivity). rewrite E. destruct (dead_step _ o _ k I Pr Vk D) as [D' Fr]. split; [exact D'|]. split.
  - intros A. apply A1. apply Fr; [|exact A]. rewrite !asks_app. apply in_or_app. left. apply in_or_app. left. exact J.
  - intros q' J' A. apply Fr in A; [|rewrite !asks_app, <- app_assoc; apply in_or_app; right; rewrite <- asks_app; exact J']. rewrite asks_app in J'. apply in_app_or in J'. destruct J' as [J'|J']; [apply (A2 q' J' A)|].
    apply (i_req _ _ _ _ I) in A. destruct Pr as (Nr & _). rewrite requests_app, map_app in Nr. apply (nodup_app_disj _ _ _ (fst q') Nr A). apply asks_in in J'. apply in_map, J'.
Qed.

(** ** C74: where the plain text comes from *)
(** A plain text is the AES decryption, with the bits of the CK, of the payload of the request.  The
    bits are decrypted by a KDK from a Data packet that was received, whose name is the one of the CK,
    then ENCRYPTED-BY and the name of the KEK of that KDK; and the KDK comes from the SafeBag in a Data
    packet that was received, by the secret that the key of the consumer decrypts. *)
Theorem C74_success : forall l r m, proper l -> In (r, Success m) (answers (outs l)) ->
  exists e bits iv w padded, In (r, e) (requests l) /\ ck_got P load pdec l (ck_of e) bits /\ ec_iv e = Some iv /\ ec_payload e = Some w /\ cbc_inv bits iv w = Ok padded /\ aes_unpad padded = Ok m.
Proof.
  intros l r m Pr A. destruct (s_out _ _ _ _ _ _ _ (run_sound P psign pverify ktype load ord pdec cbc_inv credentials l chain no_keys Pr) r m A) as (e & bits & J & U & K & D). unfold NacModel.do_decrypt in D. destruct (ec_iv e) as [iv|] eqn:Ei; [|discriminate D]. destruct (ec_payload e) as [w|] eqn:Ew; [|discriminate D]. cbn [to_bytes rbind] in D. unfold aes_decrypt in D. destruct (cbc_inv bits iv w) as [pd|] eqn:Ec; [|discriminate D]. cbn [rbind] in D. destruct (aes_unpad pd) as [m'|] eqn:Eu; [|discriminate D]. injection D as <-. exists e, bits, iv, w, pd. auto 10.
Qed.
(** When an Interest fails, the request that caused it has the error that says what failed; a timeout
    is tried again, with the same name, until no try is left. *)
Definition the_request (p : pend) : Z := match p with PCk _ _ r | PKdk _ _ _ _ r => r end.
Definition the_tries (p : pend) : Z := match p with PCk _ t _ | PKdk _ _ _ t _ => t end.
Definition the_interest (p : pend) : name * bool * bool := match p with PCk k _ _ => (k, true, false) | PKdk _ prefix _ _ _ => (prefix ++ [N_ENCRYPTED_BY] ++ credentials, false, true) end.
Theorem C74_fetch_fails : forall (s : dstate) id p, dget Z.eqb (d_pend s) id = Some p ->
  d_out (fst (d_step (ENack id) s)) = d_out s ++ [Answer (the_request p) (Failure (match p with PCk _ _ _ => 21 | _ => 11 end))] /\
  (forall x, the_tries p <= 1 -> d_out (fst (d_step (ETimeout id x) s)) = d_out s ++ [Answer (the_request p) (Failure (match p with PCk _ _ _ => 22 | _ => 12 end))]) /\
  (forall id', 1 < the_tries p -> d_out (fst (d_step (ETimeout id (Some id')) s)) = d_out s ++ [let '(n, c, m) := the_interest p in Send id' n c m]) /\
  (1 < the_tries p -> d_out (fst (d_step (ETimeout id None) s)) = d_out s ++ [Answer (the_request p) (Failure 200)]).
Proof.
  intros s id p E. destruct p as [k t r|k pr cd t r]; cbn [the_request the_tries the_interest]; (split; [|split; [|split]]); intros; unfold NacModel.d_step, take, bind at 1; rewrite E; cbv beta iota; unfold set_pending, the_ck, fetch_ck, fetch_kdk, express, set_pending, the_ck, bind, get, set_key, put, fail, emit; cbn [d_keys d_pend d_chain d_out fst snd]; try (replace (1 <? t) with false by lia); try (replace (1 <? t) with true by lia); reflexivity.
Qed.
(** All plain texts of a CK use the same bits. *)
Theorem C74_same_bits : forall l k, proper l -> Forall c_valid k -> exists bits, forall r e m, In (r, e) (asks l k) -> In (r, Success m) (answers (outs l)) -> do_decrypt e bits = Success m.
Proof.
  intros l k Pr Vk. pose proof (inv_of l Pr) as I. pose proof (i_ck _ _ _ _ I k Vk) as K. unfold KI in K. pose proof (i_once _ _ _ _ I) as N.
  assert (Once : forall r o o', In (r, o) (answers (outs l)) -> In (r, o') (answers (outs l)) -> o = o'). { clear - N. induction (answers (outs l)) as [|[r0 o0] u IH]; intros r o o' A B; [destruct A|]. cbn in N. inversion N; subst. destruct A as [A|A], B as [B|B]; [congruence| | |eapply IH; eassumption]; exfalso; apply H1; [injection A as -> _; apply (in_map fst) in B; exact B|injection B as -> _; apply (in_map fst) in A; exact A]. }
  destruct (dget n_equals (d_keys (after l)) k) as [c|]; [|exists []; intros r e m J; rewrite K in J; destruct J]. destruct (ck_bits c) as [bits|].
  - exists bits. intros r e m J A. destruct K as (_ & _ & _ & K). specialize (K _ J). cbn in K. apply (Once r); assumption.
  - exists []. intros r e m J A. exfalso. destruct K as [(p & _ & _ & _ & _ & _ & K7)|(K1 & qa & qb & K2 & K3 & K4 & K5)]; [apply (K7 _ J); eexists; exact A|]. rewrite K2 in J. apply in_app_or in J. destruct J as [J|J]; [|apply (K5 _ J); eexists; exact A]. destruct (K4 _ J) as [code F]. pose proof (Once _ _ _ A F) as X. discriminate X.
Qed.
(** Which Interests are sent *)
Theorem C74_interests : forall l x, proper l -> In x (sends (outs l)) -> reason credentials l x.
Proof. intros l x Pr. apply (s_sends _ _ _ _ _ _ _ (run_sound P psign pverify ktype load ord pdec cbc_inv credentials l chain no_keys Pr)). Qed.
End N.
Print Assumptions C74_fetch_fails.
Print Assumptions C73_at_most_once.
Print Assumptions C73_only_requests.
Print Assumptions C73_waiting.
Print Assumptions C73_first.
Print Assumptions C73_unanswered.
Print Assumptions C73_all.
Print Assumptions C73_shutdown.
Print Assumptions C73_interests.
Print Assumptions C73_stuck.
Print Assumptions C74_success.
Print Assumptions C74_same_bits.
Print Assumptions C74_interests.
