(** * ConfigPolicyManager: callbacks, Interests and timestamps *)
From Verif Require Import Base BaseLemmas NameModel NameSpec NameProofs UriModel BlobModel DictModel DictProofs WireModel CtlModel MatchModel CmdModel CmdSpec HierModel HierSpec RegexModel InfoModel ConfModel CertModel CpmModel CpmSpec CpmProofs.
Local Open Scope res_scope.

Section Outcome.
Variable P : params.
Section Env.
Variable v : env.
(** neither calls anything nor changes the timestamps *)
Definition still {A : Type} (x : pm A) : Prop := forall m, m_ts (fst (x m)) = m_ts m /\ m_outs (fst (x m)) = m_outs m.
Lemma st_ret : forall (A : Type) (a : A), still (pret a). Proof. intros A a m. split; reflexivity. Qed.
Lemma st_lift : forall (A : Type) (r : res A), still (plift r). Proof. intros A a m. split; reflexivity. Qed.
Lemma st_get : forall (A : Type) (f : mgr -> A), still (pget f). Proof. intros A a m. split; reflexivity. Qed.
Lemma st_bind : forall (A B : Type) (x : pm A) (k : A -> pm B), still x -> (forall a, still (k a)) -> still (pbind x k).
Proof. intros A B x k Hx Hk m. unfold pbind. destruct (Hx m) as [A1 A2]. destruct (x m) as [m1 [a|e]]; cbn [fst] in *; [|auto]. destruct (Hk a m1) as [B1 B2]. split; congruence. Qed.
Lemma st_put_cache : forall c, still (put_cache c). Proof. intros c m. split; reflexivity. Qed.
Lemma st_put_rcache : forall c, still (put_rcache c). Proof. intros c m. split; reflexivity. Qed.
Lemma st_put_fixed : forall c, still (put_fixed c). Proof. intros c m. split; reflexivity. Qed.
Lemma st_put_dirs : forall c, still (put_dirs c). Proof. intros c m. split; reflexivity. Qed.
Lemma st_put_requires : forall c, still (put_requires c). Proof. intros c m. split; reflexivity. Qed.
Ltac st := repeat first [apply st_ret|apply st_lift|apply st_get|apply st_put_cache|apply st_put_rcache|apply st_put_fixed|apply st_put_dirs|apply st_put_requires|apply st_bind; [|intros ?]].
Lemma st_cfind : forall n, still (cfind v n).
Proof. intros n m. unfold cfind. destruct (cc_find_name (m_cache m) (e_now v) n) as [[c r]|]; split; reflexivity. Qed.
Lemma st_rfind : forall n, still (rfind v n).
Proof. intros n m. unfold rfind. destruct (cc_find_name (m_rcache m) (e_now v) n) as [[c r]|]; split; reflexivity. Qed.
Lemma st_cinsert : forall d, still (cinsert P v d).
Proof. intros d m. unfold cinsert. destruct (cc_insert d_name (p_notAfter P) cert_checkFormat (m_cache m) (e_now v) d). split; reflexivity. Qed.
Lemma st_rinsert : forall d, still (rinsert P v d).
Proof. intros d m. unfold rinsert. destruct (cc_insert d_name (p_notAfter P) cert_checkFormat (m_rcache m) (e_now v) d). split; reflexivity. Qed.
Lemma st_lookup : forall id b, still (lookupCertificate P v id b).
Proof. intros [id|] b; cbn [lookupCertificate]; [|st]. apply st_bind; [st|]. intros fixed. destruct (dget zlist_eqb fixed id); [apply st_bind; [st|intros n; apply st_cfind]|]. st. apply st_cinsert. Qed.
Lemma st_addFiles : forall fs names, still (addFiles P v fs names).
Proof. induction fs as [|f fs IH]; intros names; cbn [addFiles]; [st|]. destruct (load_file v f); [|apply IH]. st; [apply st_rinsert|apply IH]. Qed.
Lemma st_addDirectory : forall d p, still (addDirectory P v d p).
Proof. intros [d|] p; cbn [addDirectory]; st. apply st_addFiles. Qed.
Lemma st_dropCerts : forall l, still (dropCerts v l).
Proof. induction l as [|c l IH]; cbn [dropCerts]; [st|]. destruct (n_set c) as [n|e]; [|destruct e; first [exact IH|st]]. apply st_bind; [apply st_rfind|]. intros [d|]; [|exact IH]. st. exact IH. Qed.
Lemma st_refresh : still (refreshAnchors P v).
Proof. unfold refreshAnchors. apply st_bind; [st|]. intros l. induction l as [|[dir info] l IH]; cbn [refreshDirs]; [st|]. apply st_bind; [|intros _; exact IH]. destruct (di_next info <=? e_now v); [|st]. apply st_bind; [apply st_dropCerts|intros _; apply st_addDirectory]. Qed.
Lemma st_checkSignatureMatch : forall k n r, still (checkSignatureMatch P v k n r).
Proof.
  intros k n r. unfold checkSignatureMatch. apply st_bind; [st|]. intros ck. apply st_bind; [st|]. intros ty. destruct (is_word ty w_fixed_signer); [|destruct (is_word ty w_hierarchical); [st|destruct (is_word ty w_customized); [st|destruct ty; st]]].
  unfold checkFixedSigner. apply st_bind; [st|]. intros s. apply st_bind; [st|]. intros t. apply st_bind; [|intros c; st]. destruct (is_word t w_file); [apply st_bind; [st|intros f; apply st_lookup]|]. destruct (is_word t w_base64); [apply st_bind; [st|intros f; apply st_lookup]|]. destruct t; st.
Qed.
Lemma st_findCertificate : forall k, still (findCertificate v k).
Proof. intros k. unfold findCertificate. apply st_bind; [apply st_rfind|]. intros [d|]; [st|apply st_cfind]. Qed.
Lemma st_gci : forall step ty n s, still (getCertificateInterest P v step ty n s).
Proof.
  intros step ty n s. unfold getCertificateInterest. destruct (p_maxDepth P <? step); [st|]. apply st_bind.
  - intros m. unfold findMatchingRule, pbind, pget, plift. destruct (findRule P (t_getitem (m_config m) w_validator_rule) n ty); split; reflexivity.
  - intros [r|]; [|st]. destruct (kl_ofSignature s) as [kl|]; [|st]. cbv zeta. destruct (zlen (kl_name kl) =? 0); [st|]. apply st_bind; [apply st_checkSignatureMatch|]. intros [|]; cbn [negb]; [|st]. apply st_bind; [apply st_refresh|]. intros _. apply st_bind; [apply st_findCertificate|]. intros [c|]; st.
Qed.
Lemma st_verify : forall s b, still (verify P v s b).
Proof. intros s b. unfold verify. destruct (kl_ofSignature s) as [kl|]; [|st]. destruct (match kl_type kl with Some t => t =? 1 | None => false end); [|st]. apply st_bind; [apply st_findCertificate|]. intros [d|]; [|st]. destruct (d_content d) as [[|x key]|]; st. Qed.
Lemma st_loadAnchors : forall l last, still (loadAnchors P v l last).
Proof.
  induction l as [|a l IH]; intros last; cbn [loadAnchors]; [st|]. apply st_bind; [st|]. intros ty. destruct (is_word ty w_dir); [st; [apply st_addDirectory|apply IH]|]. destruct (is_word ty w_any); [st|]. apply st_bind.
  - destruct (is_word ty w_file); [st|]. destruct (is_word ty w_base64); st.
  - intros [[id b]|]; [|st]. apply st_bind; [apply st_lookup|intros _; apply IH].
Qed.

(** ** Timestamps *)
Notation uri k := (n_toUri k false).
(** the timestamp [ts] is acceptable after those in [d] *)
Definition fresh_after (d : dict str Z) (k : name) (ts : Z) : Prop :=
  match dget zlist_eqb d (uri k) with Some last => last < ts | None => e_now v - p_grace P < ts < e_now v + p_grace P end.
Definition stamped (d d' : dict str Z) (k : name) (ts : Z) : Prop :=
  (zlen (dset zlist_eqb d (uri k) ts) < p_maxKeys P -> d' = dset zlist_eqb d (uri k) ts) /\ (forall u x, In (u, x) d' -> In (u, x) (dset zlist_eqb d (uri k) ts)).
Lemma fresh_ok : forall k ts m m' b, timestampIsFresh P v k ts m = (m', Ok b) -> m' = m /\ (b = true -> fresh_after (m_ts m) k ts).
Proof.
  intros k ts m m' b H. unfold timestampIsFresh, pbind, pget, pret in H. unfold fresh_after. destruct (dget zlist_eqb (m_ts m) (n_toUri k false)) as [last|]; injection H as <- <-; (split; [reflexivity|]); intros B.
  - apply negb_true_iff in B. lia.
  - apply andb_true_iff in B. lia.
Qed.
Lemma dremove_in : forall (d : dict str Z) k y, In y (dremove zlist_eqb d k) -> In y d.
Proof. induction d as [|[k' x] d IH]; intros k y H; [exact H|]. cbn [dremove] in H. destruct (zlist_eqb k' k); [right; exact H|]. destruct H as [<-|H]; [left; reflexivity|right; apply (IH k y H)]. Qed.
Lemma scan_in : forall l d o ok y, In y (fst (scanKeys P v l d o ok)) -> In y d.
Proof. induction l as [|[k ts] l IH]; intros d o ok y H; cbn [scanKeys] in H; [exact H|]. destruct (p_ttl P <? e_now v - ts); [apply (dremove_in _ _ _ H)|]. destruct (ts <? o); apply (IH _ _ _ _ H). Qed.
Lemma update_ok : forall k ts m, m_outs (fst (updateTimestampForKey P v k ts m)) = m_outs m /\ stamped (m_ts m) (m_ts (fst (updateTimestampForKey P v k ts m))) k ts.
Proof.
  intros k ts m. unfold updateTimestampForKey, pbind, pget, put_ts, stamped. cbn [m_ts m_outs fst]. set (d := dset zlist_eqb (m_ts m) (n_toUri k false) ts). destruct (p_maxKeys P <=? zlen d) eqn:E.
  - pose proof (scan_in d d (e_now v) None) as Sc. destruct (scanKeys P v d d (e_now v) None) as [d1 r]. cbn [fst] in Sc. unfold plift. cbn [m_ts m_outs]. destruct r as [o|e]; [|cbn [fst m_outs m_ts]; split; [reflexivity|]; split; [lia|intros u x X; apply Sc; exact X]].
    destruct (p_maxKeys P <? zlen d1); [|cbn [pret fst m_outs m_ts]; split; [reflexivity|]; split; [lia|intros u x X; apply Sc; exact X]].
    destruct o as [o|]; [|cbn [fst m_outs m_ts]; split; [reflexivity|]; split; [lia|intros u x X; apply Sc; exact X]].
    unfold ddel. destruct (din zlist_eqb d1 o); cbn [fst m_outs m_ts]; (split; [reflexivity|]; split; [lia|]); intros u x X; apply Sc; [apply (dremove_in _ _ _ X)|exact X].
  - cbn [pret fst m_outs m_ts]. split; [reflexivity|]. split; [reflexivity|auto].
Qed.

(** ** What a check does *)
Fixpoint shaped (k : cont) (p : packet) : Prop := match k with KApp _ => True | KCert p0 _ k0 => (exists d, p = PData d) /\ shaped k0 p0 end.
Definition one (c : Z) (l : list act) : Prop := (exists p, l = [AFailed c p]) \/ (exists p, l = [AVerified c p]).
(** answers at most once, and then perhaps logs an exception *)
Definition few (c : Z) (l : list act) : Prop := exists l1 l2, l = l1 ++ l2 /\ (l1 = [] \/ one c l1) /\ (l2 = [] \/ l2 = [ALogged c]).
Definition calm (a : act) : Prop := match a with AVerified _ (PInterest _) => False | _ => True end.
Definition timed (root : packet) (d d' : dict str Z) (new : list act) : Prop :=
  (d' = d /\ Forall calm new) \/ exists c n k ts, root = PInterest n /\ (exists l, new = AVerified c (PInterest n) :: l /\ Forall calm l) /\ stamp_of (PInterest n) k ts /\ fresh_after d k ts /\ stamped d d' k ts.
Definition outcome (k : cont) (p : packet) (step : Z) (m m' : mgr) (r : res (option request)) : Prop :=
  exists new, m_outs m' = m_outs m ++ new /\ few (root_call k) new /\ timed (root_packet k p) (m_ts m) (m_ts m') new /\
  match r with
  | Ok (Some q) => new = [] /\ q_step q = step + 1 /\ step <= p_maxDepth P /\ q_cont q = KCert p step k
  | Ok None => match k with KApp _ => one (root_call k) new | KCert _ _ _ => True end
  | Err _ => new = [] \/ one (root_call k) new
  end.
Lemma few_nil : forall c, few c []. Proof. intros c. exists [], []. auto. Qed.
Lemma few_one : forall c l, one c l -> few c l. Proof. intros c l H. exists l, []. rewrite app_nil_r. auto. Qed.
Lemma timed_nil : forall root d, timed root d d []. Proof. intros root d. left. auto. Qed.
Lemma one_failed : forall c p, one c [AFailed c p]. Proof. intros c p. left. eauto. Qed.
Lemma out_err : forall k p step m m' e, m_ts m' = m_ts m -> m_outs m' = m_outs m -> outcome k p step m m' (Err e).
Proof. intros k p step m m' e E1 E2. exists []. rewrite app_nil_r, E1. split; [exact E2|]. split; [apply few_nil|]. split; [apply timed_nil|auto]. Qed.
Lemma out_fail : forall k p q step m m' m2, m_ts m' = m_ts m -> m_outs m' = m_outs m -> m2 = fst (fail k q m') -> outcome k p step m m2 (Ok None).
Proof.
  intros k p q step m m' m2 E1 E2 ->. exists [AFailed (root_call k) q]. cbn [fail emit fst m_outs m_ts]. rewrite E1, E2. split; [reflexivity|]. split; [apply few_one, one_failed|]. split; [left; split; [reflexivity|repeat constructor]|]. destruct k; [apply one_failed|exact Logic.I].
Qed.
(** from the same state but for caches *)
Lemma out_eqs : forall k p step m0 m m' r, m_ts m = m_ts m0 -> m_outs m = m_outs m0 -> outcome k p step m m' r -> outcome k p step m0 m' r.
Proof. intros k p step m0 m m' r E1 E2 (new & H). exists new. rewrite <- E1, <- E2. exact H. Qed.
Lemma pbind_ok : forall (A B : Type) (x : pm A) (k : A -> pm B) m m1 a, x m = (m1, Ok a) -> pbind x k m = k a m1.
Proof. intros A B x k m m1 a E. unfold pbind. rewrite E. reflexivity. Qed.
Lemma pbind_err : forall (A B : Type) (x : pm A) (k : A -> pm B) m m1 e, x m = (m1, Err e) -> pbind x k m = (m1, Err e).
Proof. intros A B x k m m1 a E. unfold pbind. rewrite E. reflexivity. Qed.
Lemma out_bind : forall (A : Type) (x : pm A) (f : A -> pm (option request)) k p step m, still x ->
  (forall a m1, x m = (m1, Ok a) -> outcome k p step m1 (fst (f a m1)) (snd (f a m1))) -> outcome k p step m (fst (pbind x f m)) (snd (pbind x f m)).
Proof.
  intros A x f k p step m Sx H. destruct (Sx m) as [E1 E2]. unfold pbind. destruct (x m) as [m1 [a|e]] eqn:E; cbn [fst snd] in *.
  - apply (out_eqs k p step m m1); [exact E1|exact E2|]. apply H. reflexivity.
  - apply out_err; assumption.
Qed.
Lemma stamp_ok : forall n s kl c, extractSignature (PInterest n) = Ok (Some s) -> kl_ofSignature s = Some kl -> (exists s', s = s') -> py_getitem n (-4) = Ok c -> kl_type kl = Some 1 -> stamp_of (PInterest n) (kl_name kl) (c_toNumber c).
Proof.
  intros n s kl c Es Ek _ Eg Et. apply signature_ok in Es. destruct (getitem_end n 4 c) as (q & r & -> & L); [lia|exact Eg|]. destruct r as [|a [|b [|d [|x r]]]]; rewrite ?zlen_cons, ?zlen_nil in L; try lia; [|pose proof (zlen_nonneg _ r); lia].
  destruct Es as (q' & ci & cv & En & Ed). change (q ++ [c; a; b; d]) with (q ++ [c; a] ++ [b; d]) in En. rewrite app_assoc in En. apply (f_equal (@rev comp)) in En. rewrite !rev_app_distr in En. cbn in En. injection En as -> -> _.
  exists q, c, a, ci, cv, s. split; [reflexivity|]. split; [reflexivity|]. split; [exact Ed|]. exists kl. split; [exact Et|]. split; [reflexivity|]. destruct s; cbn [kl_ofSignature] in Ek; try discriminate Ek; injection Ek as <-; eauto.
Qed.
Lemma verify_type : forall s b m m' kl, kl_ofSignature s = Some kl -> verify P v s b m = (m', Ok true) -> kl_type kl = Some 1.
Proof. intros s b m m' kl Ek H. unfold verify in H. rewrite Ek in H. destruct (kl_type kl) as [t|]; [|discriminate H]. destruct (t =? 1) eqn:E; [f_equal; lia|discriminate H]. Qed.

(** the closure of a certificate: its effects *)
Definition closed (k : cont) (p : packet) (m m' : mgr) : Prop := exists new, m_outs m' = m_outs m ++ new /\ few (root_call k) new /\ timed (root_packet k p) (m_ts m) (m_ts m') new.
Lemma closure_ok : forall k0 p0 step0 d m, (forall m1, outcome k0 p0 (step0 + 1) m1 (fst (check P v k0 p0 (step0 + 1) m1)) (snd (check P v k0 p0 (step0 + 1) m1))) ->
  let x := logged (root_call k0) match cert_checkFormat d with Err _ => fail k0 p0 | Ok _ => cinsert P v d ;;; check P v k0 p0 (step0 + 1) ;;; pret tt end in
  closed k0 p0 m (fst (x m)) /\ snd (x m) = Ok tt.
Proof.
  intros k0 p0 step0 d m IH x. subst x. unfold logged. destruct (cert_checkFormat d).
  - destruct (st_cinsert d m) as [E1 E2]. unfold pbind. destruct (cinsert P v d m) as [m1 [[]|e]]; cbn [fst] in E1, E2.
    + destruct (IH m1) as (new & En & F & T & R). destruct (check P v k0 p0 (step0 + 1) m1) as [m2 [r|e]]; cbn [fst snd] in *.
      * cbn [pret fst snd]. split; [|reflexivity]. exists new. rewrite <- E1, <- E2. auto.
      * cbn [emit fst snd m_outs m_ts]. split; [|reflexivity]. exists (new ++ [ALogged (root_call k0)]). cbn [m_outs m_ts]. rewrite <- E2, En, app_assoc. split; [reflexivity|].
        split; [exists new, [ALogged (root_call k0)]; auto|]. rewrite <- E1. destruct T as [[Ed Fc]|(c & n & k & ts & A1 & (l & A2 & A3) & A4)]; [left; split; [exact Ed|apply Forall_app; split; [exact Fc|repeat constructor]]|right].
        exists c, n, k, ts. split; [exact A1|]. split; [|exact A4]. exists (l ++ [ALogged (root_call k0)]). rewrite A2. split; [reflexivity|apply Forall_app; split; [exact A3|repeat constructor]].
    + cbn [emit fst snd m_outs m_ts]. split; [|reflexivity]. exists [ALogged (root_call k0)]. cbn [m_outs m_ts]. rewrite E1, E2. split; [reflexivity|]. split; [exists [], [ALogged (root_call k0)]; auto|left; split; [reflexivity|repeat constructor]].
  - cbn [fail emit fst snd]. split; [|reflexivity]. exists [AFailed (root_call k0) p0]. cbn [m_outs m_ts]. split; [reflexivity|]. split; [apply few_one, one_failed|left; split; [reflexivity|repeat constructor]].
Qed.
Lemma check_ok : forall k p step m, shaped k p -> outcome k p step m (fst (check P v k p step m)) (snd (check P v k p step m)).
Proof.
  induction k as [call|p0 step0 k IH]; intros p step m Sh.
  - cbn [check]. rewrite subject_ok. apply out_bind; [apply st_lift|]. intros obj m1 Eo. injection Eo as _ <-. apply out_bind; [apply st_lift|]. intros [s|] m1' Es; [|apply (out_fail _ _ p _ _ m1'); reflexivity]. injection Es as _ Es.
    apply out_bind; [apply st_gci|]. intros [n|] m2 Eg; [|apply (out_fail _ _ p _ _ m2); reflexivity].
    assert (Dep : step <= p_maxDepth P) by (unfold getCertificateInterest in Eg; destruct (p_maxDepth P <? step) eqn:D; [discriminate Eg|lia]).
    destruct (0 <? zlen n); [exists []; cbn [pret fst snd]; rewrite app_nil_r; split; [reflexivity|]; split; [apply few_nil|]; split; [apply timed_nil|]; auto|].
    destruct p as [d|i].
    + apply out_bind; [apply st_ret|]. intros st m3 Est. injection Est as <- <-. apply out_bind; [apply st_lift|]. intros b m3 Eb. apply out_bind; [apply st_verify|]. intros [|] m4 Ev; [|apply (out_fail _ _ (PData d) _ _ m4); reflexivity].
      unfold pbind. cbn [emit pret fst snd m_outs m_ts]. exists [AVerified call (PData d)]. cbn [root_call root_packet]. split; [reflexivity|]. assert (O : one call [AVerified call (PData d)]) by (right; eauto). split; [apply few_one; exact O|]. split; [left; split; [reflexivity|repeat constructor]|exact O].
    + match goal with |- outcome _ _ _ ?m0 (fst (pbind ?x ?f ?m0)) _ => assert (Hx : exists m3 r, x m0 = (m3, r) /\ m_ts m3 = m_ts m0 /\ (match r with Ok (Some st) => m_outs m3 = m_outs m0 /\ exists kl c, kl_ofSignature s = Some kl /\ py_getitem i (-4) = Ok c /\ st = Some (kl_name kl, c_toNumber c) /\ fresh_after (m_ts m0) (kl_name kl) (c_toNumber c) | Ok None => m_outs m3 = m_outs m0 ++ [AFailed call (PInterest i)] | Err _ => m_outs m3 = m_outs m0 end)) end.
      { destruct (kl_ofSignature s) as [kl|]; [|unfold pbind, plift; eexists; eexists; split; [reflexivity|split; reflexivity]]. unfold pbind at 1. unfold plift at 1. destruct (py_getitem i (-4)) as [c|e]; [|unfold pbind, plift; eexists; eexists; split; [reflexivity|split; reflexivity]]. unfold pbind at 1. unfold plift at 1.
        unfold pbind at 1. destruct (timestampIsFresh P v (kl_name kl) (c_toNumber c) m2) as [m3 [fr|e]] eqn:Ef.
        - apply fresh_ok in Ef. destruct Ef as [-> Ef]. destruct fr.
          + eexists; eexists; split; [reflexivity|]. split; [reflexivity|]. cbn. split; [reflexivity|]. exists kl, c. auto.
          + eexists; eexists; split; [reflexivity|]. split; reflexivity.
        - unfold timestampIsFresh, pbind, pget in Ef. destruct (dget zlist_eqb (m_ts m2) (n_toUri (kl_name kl) false)); discriminate Ef. }
      destruct Hx as (m3 & r & Ex & E1 & Hr). destruct r as [[st|]|e]; [rewrite (pbind_ok _ _ _ _ _ _ _ Ex)|rewrite (pbind_ok _ _ _ _ _ _ _ Ex)|rewrite (pbind_err _ _ _ _ _ _ _ Ex)].
      * destruct Hr as (E2 & kl & c & Ek & Eg4 & -> & Fr). apply (out_eqs _ _ _ m2 m3 _ _ E1 E2). rewrite <- E1 in Fr. clear m2 Eg Ex E1 E2. rename m3 into m2.
        apply out_bind; [apply st_lift|]. intros b m3 Eb. injection Eb as <- _. apply out_bind; [apply st_verify|]. intros [|] m4 Ev; [|apply (out_fail _ _ (PInterest i) _ _ m4); reflexivity].
        pose proof (st_verify s b m2) as [V1 V2]. rewrite Ev in V1, V2. cbn [fst] in V1, V2. rewrite <- V1 in Fr.
        pose proof (stamp_ok i s kl c Es Ek (ex_intro _ s eq_refl) Eg4 (verify_type _ _ _ _ _ Ek Ev)) as Stm.
        unfold pbind. cbn [emit fst snd]. set (m5 := Mgr _ _ _ _ _ _ _ _). pose proof (update_ok (kl_name kl) (c_toNumber c) m5) as [U1 U2]. change (m_ts m5) with (m_ts m4) in U2. change (m_outs m5) with (m_outs m4 ++ [AVerified call (PInterest i)]) in U1.
        assert (O : one call [AVerified call (PInterest i)]) by (right; eauto).
        assert (T : timed (PInterest i) (m_ts m4) (m_ts (fst (updateTimestampForKey P v (kl_name kl) (c_toNumber c) m5))) [AVerified call (PInterest i)]).
        { right. exists call, i, (kl_name kl), (c_toNumber c). split; [reflexivity|]. split; [exists []; split; [reflexivity|constructor]|]. auto. }
        destruct (updateTimestampForKey P v (kl_name kl) (c_toNumber c) m5) as [m6 [u|e]]; cbn [fst snd pret] in *; exists [AVerified call (PInterest i)]; (split; [exact U1|]); (split; [apply few_one; exact O|]); (split; [exact T|]); auto.
      * cbn [fst snd pret]. exists [AFailed call (PInterest i)]. split; [exact Hr|]. split; [apply few_one, one_failed|]. split; [rewrite E1; left; split; [reflexivity|repeat constructor]|apply one_failed].
      * cbn [fst snd]. apply out_err; assumption.
  - destruct Sh as [[d ->] Sh]. cbn [check]. apply out_bind; [apply st_lift|]. intros obj m1 Eo. injection Eo as _ <-. apply out_bind; [apply st_lift|]. intros [s|] m1' Es; [|apply (out_fail _ _ (PData d) _ _ m1'); reflexivity]. injection Es as _ Es.
    apply out_bind; [apply st_gci|]. intros [n|] m2 Eg; [|apply (out_fail _ _ (PData d) _ _ m2); reflexivity].
    assert (Dep : step <= p_maxDepth P) by (unfold getCertificateInterest in Eg; destruct (p_maxDepth P <? step) eqn:D; [discriminate Eg|lia]).
    destruct (0 <? zlen n); [exists []; cbn [pret fst snd]; rewrite app_nil_r; split; [reflexivity|]; split; [apply few_nil|]; split; [apply timed_nil|]; auto|].
    apply out_bind; [apply st_ret|]. intros st m3 Est. injection Est as <- <-. apply out_bind; [apply st_lift|]. intros b m3 Eb. apply out_bind; [apply st_verify|]. intros [|] m4 Ev; [|apply (out_fail _ _ (PData d) _ _ m4); reflexivity].
    pose proof (closure_ok k p0 step0 d m4 (fun m1 => IH p0 (step0 + 1) m1 Sh)) as [(new & En & Fn & Tn) Er]. match type of Er with snd (?x m4) = _ => destruct (x m4) as [m5 r] eqn:Ex end. cbn [fst snd] in En, Fn, Tn, Er. subst r. rewrite (pbind_ok _ _ _ _ _ _ _ Ex). cbn [pbind pret fst snd]. exists new. auto.
Qed.
Lemma callVerified_ok : forall k p m, shaped k p -> closed k p m (fst (callVerified P v k p m)) \/ exists call, k = KApp call /\ callVerified P v k p m = emit (AVerified call p) m.
Proof.
  intros [call|p0 step0 k] p m Sh; [right; exists call; split; reflexivity|left]. destruct Sh as [[d ->] Sh]. cbn [callVerified].
  pose proof (closure_ok k p0 step0 d m (fun m1 => check_ok k p0 (step0 + 1) m1 Sh)) as [H _]. exact H.
Qed.
End Env.
End Outcome.

(** ** Histories *)
Section Worlds.
Variable P : params.
Definition root_of (x : pend) : Z := root_call (q_cont (pd_req x)).
Definition shaped_pend (x : pend) : Prop := 0 <= pd_retry x /\ exists p step k, q_cont (pd_req x) = KCert p step k /\ shaped k p.
Record world_ok (w : world) : Prop := WorldOk { W_shape : Forall shaped_pend (w_pend w); W_ids : NoDup (map pd_id (w_pend w)); W_next : Forall (fun x => (pd_id x < w_next w)%nat) (w_pend w) }.
Lemma trace_from_app : forall h1 h2 w, trace_from P w (h1 ++ h2) = trace_from P w h1 ++ trace_from P (fold_left (fun w x => fst (do P (fst x) (snd x) w)) h1 w) h2.
Proof. induction h1 as [|[v e] h1 IH]; intros h2 w; [reflexivity|]. cbn [app trace_from fold_left fst snd]. rewrite IH, app_assoc. reflexivity. Qed.
Lemma run_app : forall h1 h2, run P (h1 ++ h2) = fold_left (fun w x => fst (do P (fst x) (snd x) w)) h2 (run P h1).
Proof. intros h1 h2. unfold run. apply fold_left_app. Qed.
Lemma trace_from_snoc : forall h0 h v e, trace_from P (run P h0) (h ++ [(v, e)]) = trace_from P (run P h0) h ++ outs (run P (h0 ++ h ++ [(v, e)])).
Proof. intros h0 h v e. rewrite trace_from_app. cbn [trace_from]. rewrite app_nil_r. rewrite app_assoc, run_snoc, run_app. reflexivity. Qed.

(** the effect of one start *)
Lemma verifyPacket_ok : forall v k p step m, shaped k p -> let r := verifyPacket P v k p step m in
  (exists new, m_outs (fst r) = m_outs m ++ new /\ few (root_call k) new /\ (m_requires m = true -> timed P v (root_packet k p) (m_ts m) (m_ts (fst r)) new) /\
   match snd r with Ok (Some q) => new = [] /\ q_step q = step + 1 /\ step <= p_maxDepth P /\ q_cont q = KCert p step k | Ok None => match k with KApp _ => one (root_call k) new | KCert _ _ _ => True end | Err _ => True end).
Proof.
  intros v k p step m Sh r. subst r. unfold verifyPacket, pget. cbn [pbind]. destruct (m_requires m) eqn:R.
  - destruct (check_ok P v k p step m Sh) as (new & A & B & C & D). exists new. split; [exact A|]. split; [exact B|]. split; [auto|]. destruct (snd (check P v k p step m)) as [[q|]|e]; auto.
  - cbn [negb]. unfold pbind. destruct (callVerified_ok P v k p m Sh) as [(new & A & B & C)|(call & -> & E)].
    + destruct k as [call|p0 step0 k0]; [cbn [callVerified emit fst snd pret] in *; exists [AVerified call p]; split; [reflexivity|]; assert (O : one call [AVerified call p]) by (right; eauto); split; [apply few_one; exact O|]; split; [discriminate|exact O]|].
      destruct (callVerified P v (KCert p0 step0 k0) p m) as [m' [u|e]]; cbn [fst snd pret] in *; exists new; (split; [exact A|]); (split; [exact B|]); (split; [discriminate|]); exact Logic.I.
    + rewrite E. cbn [emit fst snd pret m_outs]. exists [AVerified call p]. split; [reflexivity|]. assert (O : one call [AVerified call p]) by (right; eauto). split; [apply few_one; exact O|]. split; [discriminate|exact O].
Qed.
Definition added (v : env) (k : cont) (p : packet) (step : Z) (w w' : world) (x : option exn) : Prop :=
  (w_pend w' = w_pend w /\ w_next w' = w_next w /\ few (root_call k) (outs w') /\ (x = None -> match k with KApp _ => one (root_call k) (outs w') | KCert _ _ _ => True end) /\ (m_requires (w_mgr w) = true -> timed P v (root_packet k p) (m_ts (w_mgr w)) (m_ts (w_mgr w')) (outs w'))) \/
  (exists q, w_pend w' = w_pend w ++ [Pend (w_next w) q 2] /\ w_next w' = S (w_next w) /\ q_cont q = KCert p step k /\ q_step q = step + 1 /\ step <= p_maxDepth P /\ outs w' = [AExpress (root_call k) (q_name q)] /\ x = None /\ (m_requires (w_mgr w) = true -> m_ts (w_mgr w') = m_ts (w_mgr w))).
Lemma start_added : forall v k p step w, shaped k p -> outs w = [] -> added v k p step w (fst (start P v k p step w)) (snd (start P v k p step w)).
Proof.
  intros v k p step w Sh O. unfold start. destruct (verifyPacket_ok v k p step (w_mgr w) Sh) as (new & A & B & C & D). unfold outs in O. rewrite O in A. cbn [app] in A. unfold added, outs.
  destruct (verifyPacket P v k p step (w_mgr w)) as [m [[q|]|e]]; cbn [fst snd] in *.
  - destruct D as (-> & D1 & D2 & D3). unfold express. cbn [w_mgr w_pend w_next]. destruct (e_express v (q_name q)); cbn [fst snd w_mgr w_pend w_next emit m_outs m_ts].
    + left. rewrite A. split; [reflexivity|]. split; [reflexivity|]. split; [exact B|]. split; [discriminate|exact C].
    + right. exists q. rewrite A, D3. cbn [app root_call]. repeat (split; [first [reflexivity|assumption]|]). intros R. destruct (C R) as [[E _]|(c & n & kk & ts & _ & (l & X & _) & _)]; [exact E|discriminate X].
  - left. cbn [w_pend w_next w_mgr]. rewrite A. auto.
  - left. cbn [w_pend w_next w_mgr]. rewrite A. split; [reflexivity|]. split; [reflexivity|]. split; [exact B|]. split; [discriminate|exact C].
Qed.

(** sums over the Interests that wait for a call *)
Definition psum (f : pend -> Z) (c : Z) (l : list pend) : Z := fold_right (fun x a => (if root_of x =? c then f x else 0) + a) 0 l.
Lemma psum_app : forall f c l1 l2, psum f c (l1 ++ l2) = psum f c l1 + psum f c l2.
Proof. induction l1 as [|x l1 IH]; intros l2; [reflexivity|]. cbn [app psum fold_right]. fold (psum f c (l1 ++ l2)). fold (psum f c l1). rewrite IH. lia. Qed.
Lemma psum_nonneg : forall f c l, Forall (fun x => 0 <= f x) l -> 0 <= psum f c l.
Proof. induction l as [|x l IH]; intros H; [cbn; lia|]. apply Forall_cons_iff in H. destruct H as [H1 H2]. cbn [psum fold_right]. fold (psum f c l). specialize (IH H2). destruct (root_of x =? c); lia. Qed.
Lemma drop_id : forall l i, ~ In i (map pd_id l) -> drop i l = l.
Proof. induction l as [|y l IH]; intros i N; [reflexivity|]. unfold drop. cbn [List.filter]. fold (drop i l). cbn [map] in N. destruct (Nat.eqb_spec (pd_id y) i) as [E|E]; [elim N; left; exact E|]. cbn [negb]. f_equal. apply IH. intros X. apply N. right. exact X. Qed.
Lemma psum_drop : forall f c l i x, NoDup (map pd_id l) -> take i l = Some x -> psum f c l = (if root_of x =? c then f x else 0) + psum f c (drop i l).
Proof.
  induction l as [|y l IH]; intros i x N H; [discriminate H|]. unfold take in H. cbn [find] in H. unfold drop. cbn [List.filter]. cbn [map] in N. apply NoDup_cons_iff in N. destruct N as [N1 N2]. destruct (Nat.eqb_spec (pd_id y) i) as [E|E]; cbn [negb].
  - injection H as <-. fold (drop i l). rewrite drop_id by (rewrite <- E; exact N1). reflexivity.
  - cbn [psum fold_right]. fold (psum f c l). fold (drop i l). fold (psum f c (drop i l)). rewrite (IH i x N2 H). lia.
Qed.
Lemma nodup_drop : forall i l, NoDup (map pd_id l) -> NoDup (map pd_id (drop i l)).
Proof.
  induction l as [|y l IH]; intros N; [constructor|]. cbn [map] in N. apply NoDup_cons_iff in N. destruct N as [N1 N2]. unfold drop. cbn [List.filter]. fold (drop i l). destruct (negb (pd_id y =? i)%nat); [|apply IH; exact N2]. cbn [map]. constructor; [|apply IH; exact N2].
  intros X. apply N1. apply in_map_iff in X. destruct X as (z & E & I). apply filter_In in I. rewrite <- E. apply in_map. apply I.
Qed.
Lemma count_app : forall (A : Type) (f : A -> bool) l1 l2, count f (l1 ++ l2) = count f l1 + count f l2.
Proof. intros A f l1 l2. unfold count. rewrite filter_app, zlen_app. reflexivity. Qed.
Lemma psum_one : forall f c y, psum f c [y] = if root_of y =? c then f y else 0.
Proof. intros f c y. cbn [psum fold_right]. lia. Qed.
Lemma send_counts : forall c r n, count (sends c) [AExpress r n] = (if r =? c then 1 else 0) /\ count (answers c) [AExpress r n] = 0.
Proof. intros c r n. unfold count. cbn [List.filter sends answers]. destruct (r =? c); split; reflexivity. Qed.
Lemma fail_counts : forall c r n, count (answers c) [AFailed r n] = (if r =? c then 1 else 0) /\ count (sends c) [AFailed r n] = 0.
Proof. intros c r n. unfold count. cbn [List.filter sends answers]. destruct (r =? c); split; reflexivity. Qed.
Lemma few_counts : forall r c l, few r l -> count (sends c) l = 0 /\ 0 <= count (answers c) l <= (if r =? c then 1 else 0).
Proof.
  intros r c l (l1 & l2 & -> & H1 & H2). rewrite !count_app. assert (A2 : count (sends c) l2 = 0 /\ count (answers c) l2 = 0) by (destruct H2 as [-> | ->]; split; reflexivity). destruct A2 as [-> ->].
  destruct H1 as [->|[[p ->]|[p ->]]]; [unfold count; cbn; destruct (r =? c); lia| |]; unfold count; cbn [List.filter sends answers]; destruct (r =? c); cbn; lia.
Qed.

Definition pot (x : pend) : Z := pd_retry x + 3 * Z.max 0 (p_maxDepth P + 1 - q_step (pd_req x)).
Definition budget : Z := 3 * Z.max 0 (p_maxDepth P + 1).
Record balance (h : list (env * event)) (w : world) : Prop := Balance {
  B_world : world_ok w;
  B_answers : forall c, count (answers c) (trace P h) + psum (fun _ => 1) c (w_pend w) <= count (asks c) h;
  B_sends : forall c, count (sends c) (trace P h) + psum pot c (w_pend w) <= budget * count (asks c) h }.
Lemma trace_snoc : forall h v e, trace P (h ++ [(v, e)]) = trace P h ++ outs (run P (h ++ [(v, e)])).
Proof. intros h v e. exact (trace_from_snoc [] h v e). Qed.
Lemma world_add : forall w q, world_ok w -> (exists p step k, q_cont q = KCert p step k /\ shaped k p) -> forall m r, 0 <= r -> world_ok (World m (w_pend w ++ [Pend (w_next w) q r]) (S (w_next w))).
Proof.
  intros w q [A B C] Q m r Hr. constructor; cbn [w_pend w_next].
  - apply Forall_app. split; [exact A|]. constructor; [split; [exact Hr|exact Q]|constructor].
  - rewrite map_app. cbn [map pd_id]. rewrite Forall_forall in C. clear - B C. induction (w_pend w) as [|y l IH]; cbn [map app]; [constructor; [intros []|constructor]|]. cbn [map] in B. apply NoDup_cons_iff in B. destruct B as [B1 B2].
    constructor; [|apply IH; [exact B2|intros x X; apply C; right; exact X]]. intros X. apply in_app_or in X. destruct X as [X|[X|[]]]; [apply B1; exact X|]. specialize (C y (or_introl eq_refl)). lia.
  - apply Forall_app. split; [apply Forall_impl with (2 := C); intros y Y; lia|]. constructor; [cbn [pd_id]; lia|constructor].
Qed.
Lemma world_drop : forall w i m, world_ok w -> world_ok (World m (drop i (w_pend w)) (w_next w)).
Proof. intros w i m [A B C]. constructor; cbn [w_pend w_next]; [apply drop_ok; exact A|apply nodup_drop; exact B|apply drop_ok; exact C]. Qed.
Lemma world_same : forall w m, world_ok w -> world_ok (World m (w_pend w) (w_next w)).
Proof. intros w m [A B C]. constructor; assumption. Qed.
Lemma added_world : forall v k p step w w' x, shaped k p -> world_ok w -> added v k p step w w' x -> world_ok w'.
Proof.
  intros v k p step w w' x Sh W [(A & B & _)|(q & A & B & C & _)]; destruct w' as [m l n]; cbn [w_pend w_next] in *; subst l n; [apply world_same; exact W|]. apply world_add; [exact W|eauto 8|lia].
Qed.
Lemma asks_snoc : forall c h v e, count (asks c) (h ++ [(v, e)]) = count (asks c) h + (match e with EVerify c' _ => if c' =? c then 1 else 0 | _ => 0 end).
Proof. intros c h v e. rewrite count_app. f_equal. unfold count. unfold asks; cbn [List.filter snd]. destruct e as [| c' p | |]; try reflexivity. destruct (c' =? c); reflexivity. Qed.
Lemma balance_ok : forall h, balance h (run P h).
Proof.
  intros h. induction h as [|[v e] h [W An Se]] using rev_ind.
  - split; [split; constructor| |]; intros c; unfold count; cbn; lia.
  - set (w := clear_outs (run P h)). assert (W0 : world_ok w) by (destruct W; constructor; assumption). assert (O0 : outs w = []) by reflexivity.
    set (w' := run P (h ++ [(v, e)])). assert (Ew : w' = fst (do P v e (run P h))) by apply run_snoc.
    assert (Core : world_ok w' /\ forall c, (count (answers c) (outs w') + psum (fun _ => 1) c (w_pend w') <= psum (fun _ => 1) c (w_pend w) + match e with EVerify c' _ => if c' =? c then 1 else 0 | _ => 0 end) /\
      (count (sends c) (outs w') + psum pot c (w_pend w') <= psum pot c (w_pend w) + budget * match e with EVerify c' _ => if c' =? c then 1 else 0 | _ => 0 end)).
    { rewrite Ew. unfold do. fold w. destruct e as [root err|call p|i d|i].
      - assert (L : m_outs (fst (load P v root err (w_mgr w))) = []).
        { unfold load. change ((reset P;;; put_config root;;; match err with Some e => plift (Err e) | None => loadAnchors P v (t_getitem root w_validator_anchor) None end) (w_mgr w)) with ((match err with Some e => plift (Err e) | None => loadAnchors P v (t_getitem root w_validator_anchor) None end) (fst (put_config root (fst (reset P (w_mgr w)))))).
          destruct err; [reflexivity|]. exact (proj2 (st_loadAnchors P v _ None _)). }
        destruct (load P v root err (w_mgr w)) as [m r]. cbn [fst] in *. split; [apply world_same; exact W0|]. intros c. unfold outs. cbn [w_mgr w_pend]. rewrite L. unfold count. cbn [List.filter]; rewrite ?zlen_cons, ?zlen_nil. lia.
      - pose proof (start_added v (KApp call) p 0 w Logic.I O0) as Ad. pose proof (added_world _ _ _ _ _ _ _ (Logic.I : shaped (KApp call) p) W0 Ad) as W'. split; [exact W'|]. intros c. destruct Ad as [(A & B & C & _)|(q & A & B & C & D & E & F & _)].
        + destruct (few_counts _ c _ C) as [-> X]. cbn [root_call] in X. rewrite A. unfold budget. destruct (call =? c); lia.
        + rewrite A, F. rewrite !psum_app. cbn [psum fold_right]. unfold root_of. cbn [pd_req]. rewrite C. cbn [root_call]. unfold count. cbn [List.filter answers sends root_call]. unfold pot. cbn [pd_retry pd_req]. rewrite D. unfold budget. destruct (call =? c); rewrite ?zlen_cons, ?zlen_nil; lia.
      - destruct (take i (w_pend w)) as [x|] eqn:Et; [|cbn [fst]; split; [exact W0|]; intros c; rewrite O0; unfold count; cbn; lia].
        pose proof (take_in _ _ _ Et) as Ix. pose proof (proj1 (Forall_forall _ _) (W_shape w W0) x Ix) as (Rt & p & s & k & Eq & Sh). set (w1 := World (w_mgr w) (drop i (w_pend w)) (w_next w)). assert (W1 : world_ok w1) by (apply world_drop; exact W0).
        assert (Shp : shaped (q_cont (pd_req x)) (PData d)) by (rewrite Eq; split; [eauto|exact Sh]).
        pose proof (start_added v (q_cont (pd_req x)) (PData d) (q_step (pd_req x)) w1 Shp O0) as Ad. pose proof (added_world _ _ _ _ _ _ _ Shp W1 Ad) as W'. split; [exact W'|]. intros c. rewrite !(psum_drop _ c _ i x (W_ids w W0) Et). fold (root_of x) in Ad.
        assert (Pot : 0 <= pot x) by (unfold pot; lia). change (drop i (w_pend w)) with (w_pend w1). destruct Ad as [(A & B & C & _)|(q & A & B & C & D & E & F & _)].
        + destruct (few_counts _ c _ C) as [-> X]. fold (root_of x) in X. rewrite A. destruct (root_of x =? c); lia.
        + rewrite A, F. rewrite !psum_app, !psum_one. destruct (send_counts c (root_of x) (q_name q)) as [S1 S2]. fold (root_of x). rewrite S1, S2.
          assert (Rq : root_of (Pend (w_next w1) q 2) = root_of x) by (unfold root_of at 1; cbn [pd_req]; rewrite C; reflexivity). rewrite Rq. assert (Pq : pot (Pend (w_next w1) q 2) + 1 <= pot x) by (unfold pot; cbn [pd_retry pd_req]; rewrite D; lia). destruct (root_of x =? c); lia.
      - destruct (take i (w_pend w)) as [x|] eqn:Et; [|cbn [fst]; split; [exact W0|]; intros c; rewrite O0; unfold count; cbn; lia].
        pose proof (take_in _ _ _ Et) as Ix. pose proof (proj1 (Forall_forall _ _) (W_shape w W0) x Ix) as (Rt & p & s & k & Eq & Sh). assert (W1 : world_ok (World (w_mgr w) (drop i (w_pend w)) (w_next w))) by (apply world_drop; exact W0). cbv zeta.
        assert (Pot : 0 <= pot x) by (unfold pot; lia).
        destruct (0 <? pd_retry x) eqn:Er.
        + unfold express. cbn [w_mgr w_pend w_next]. destruct (e_express v (q_name (pd_req x))); cbn [fst].
          * split; [exact W1|]. intros c. rewrite !(psum_drop _ c _ i x (W_ids w W0) Et). unfold outs in *. cbn [w_mgr w_pend]. rewrite O0. unfold count. cbn [List.filter]; rewrite ?zlen_cons, ?zlen_nil. destruct (root_of x =? c); lia.
          * split; [apply (world_add (World (w_mgr w) (drop i (w_pend w)) (w_next w))); [exact W1|eauto 8|lia]|]. intros c. rewrite !(psum_drop _ c _ i x (W_ids w W0) Et). unfold outs in *. cbn [w_mgr w_pend emit fst m_outs]. rewrite O0. cbn [app]. rewrite !psum_app, !psum_one. fold (root_of x). destruct (send_counts c (root_of x) (q_name (pd_req x))) as [S1 S2]. rewrite S1, S2.
            change (root_of (Pend (w_next w) (pd_req x) (pd_retry x - 1))) with (root_of x). assert (Pq : pot (Pend (w_next w) (pd_req x) (pd_retry x - 1)) + 1 = pot x) by (unfold pot; cbn [pd_retry pd_req]; lia). destruct (root_of x =? c); lia.
        + cbn [fst]. split; [apply (world_same (World (w_mgr w) (drop i (w_pend w)) (w_next w))); exact W1|]. intros c. rewrite !(psum_drop _ c _ i x (W_ids w W0) Et). unfold failTimeout. rewrite Eq. unfold outs in *. cbn [w_mgr w_pend fail emit fst m_outs]. rewrite O0. cbn [app]. assert (Rx : root_call k = root_of x) by (unfold root_of; rewrite Eq; reflexivity). rewrite Rx. destruct (fail_counts c (root_of x) p) as [S1 S2]. rewrite S1, S2. destruct (root_of x =? c); lia. }
    destruct Core as [W' Co]. constructor; [exact W'| |]; intros c; rewrite trace_snoc, count_app, asks_snoc; fold w'; specialize (Co c); specialize (An c); specialize (Se c); change (w_pend (run P h)) with (w_pend w) in *; lia.
Qed.
End Worlds.

(** ** Timestamps over a history *)
Section Stamps.
Variable P : params.
Notation uri k := (n_toUri k false).
Lemma locates_fun : forall s k k', locates s k -> locates s k' -> k = k'.
Proof. intros s k k' (kl & _ & <- & A) (kl' & _ & <- & B). destruct A as [(?&?&->)|[(?&?&->)|(?&->)]]; destruct B as [(?&?&E)|[(?&?&E)|(?&E)]]; try discriminate E; injection E; intros; subst; reflexivity. Qed.
Lemma stamp_fun : forall p k ts k' ts', stamp_of p k ts -> stamp_of p k' ts' -> k = k' /\ ts = ts'.
Proof.
  intros [d|n] k ts k' ts' A B; [elim A|]. destruct A as (q & a & b & c & d & s & -> & <- & Ed & L). destruct B as (q' & a' & b' & c' & d' & s' & H & <- & Ed' & L').
  apply (f_equal (@rev comp)) in H. rewrite !rev_app_distr in H. cbn in H. injection H as <- <- _ <- _. rewrite Ed in Ed'. injection Ed' as <-. split; [exact (locates_fun s k k' L L')|reflexivity].
Qed.
Definition Dall (_ : str) : Prop := True.
Lemma Hstr : forall a b : str, Dall a -> Dall b -> (zlist_eqb a b = true <-> a = b). Proof. intros a b _ _. apply zlist_eqb_eq. Qed.
Lemma dom_all : forall d : dict str Z, Forall (fun kv => Dall (fst kv)) d. Proof. intros d. apply Forall_forall. intros x _. exact Logic.I. Qed.
(** one event *)
Lemma do_timed : forall h v e, world_ok (run P h) -> loads (v, e) = false -> m_requires (w_mgr (run P h)) = true ->
  exists root, timed P v root (m_ts (w_mgr (run P h))) (m_ts (w_mgr (run P (h ++ [(v, e)])))) (outs (run P (h ++ [(v, e)]))).
Proof.
  intros h v e W Ne R. rewrite run_snoc. unfold do. set (w := clear_outs (run P h)). assert (O0 : outs w = []) by reflexivity. change (m_ts (w_mgr (run P h))) with (m_ts (w_mgr w)). change (m_requires (w_mgr w) = true) in R.
  assert (W0 : world_ok w) by (destruct W; constructor; assumption).
  assert (St : forall k p step w1, w_mgr w1 = w_mgr w -> shaped k p -> exists root, timed P v root (m_ts (w_mgr w)) (m_ts (w_mgr (fst (start P v k p step w1)))) (outs (fst (start P v k p step w1)))).
  { intros k p step w1 Ew Sh. destruct (start_added P v k p step w1 Sh) as [(_ & _ & _ & _ & T)|(q & _ & _ & _ & _ & _ & F & _ & T)]; [unfold outs; rewrite Ew; exact O0| |]; rewrite Ew in T; specialize (T R); [exists (root_packet k p); exact T|exists p; left]. rewrite F. split; [exact T|repeat constructor]. }
  destruct e as [root err|call p|i d|i]; [discriminate Ne| | |].
  - apply St; [reflexivity|exact Logic.I].
  - destruct (take i (w_pend w)) as [x|] eqn:Et; [|exists (PData d); cbn [fst]; rewrite O0; apply timed_nil]. pose proof (take_in _ _ _ Et) as Ix. pose proof (proj1 (Forall_forall _ _) (W_shape w W0) x Ix) as (Rt & p & s & k & Eq & Sh). apply St; [reflexivity|]. rewrite Eq. split; [eauto|exact Sh].
  - exists (PInterest []). destruct (take i (w_pend w)) as [x|] eqn:Et; [|cbn [fst]; rewrite O0; apply timed_nil]. cbv zeta. unfold outs in O0. destruct (0 <? pd_retry x).
    + unfold express. cbn [w_mgr]. destruct (e_express v (q_name (pd_req x))); cbn [fst]; unfold outs; cbn [w_mgr emit fst m_outs m_ts]; rewrite O0; [apply timed_nil|left; split; [reflexivity|repeat constructor]].
    + cbn [fst]. unfold outs. cbn [w_mgr]. unfold failTimeout. destruct (q_cont (pd_req x)) as [c|p s k]; [rewrite O0; apply timed_nil|]. cbn [fail emit fst m_outs m_ts]. rewrite O0. left. split; [reflexivity|repeat constructor].
Qed.
Definition dealt (h0 h1 : list (env * event)) (c : Z) (p : packet) (k : name) (ts : Z) : Prop := In (AVerified c p) (trace_from P (run P h0) h1) /\ stamp_of p k ts.
Record tracked (h0 h1 : list (env * event)) (ks : list str) : Prop := Tracked {
  K_nodup : zlen ks < p_maxKeys P -> NoDup (dkeys (m_ts (w_mgr (run P (h0 ++ h1)))));
  K_from : forall u x, In (u, x) (m_ts (w_mgr (run P (h0 ++ h1)))) -> exists c p k, dealt h0 h1 c p k x /\ uri k = u;
  K_to : zlen ks < p_maxKeys P -> forall c p k ts, dealt h0 h1 c p k ts -> exists last, dget zlist_eqb (m_ts (w_mgr (run P (h0 ++ h1)))) (uri k) = Some last /\ ts <= last }.
Definition within (h0 h1 : list (env * event)) (ks : list str) : Prop := forall c p k ts, dealt h0 h1 c p k ts -> In (uri k) ks.
Lemma begin_ts : forall h, begins h -> m_ts (w_mgr (run P h)) = [].
Proof.
  intros h [->|(h' & v & root & err & ->)]; [reflexivity|]. rewrite run_snoc. unfold do. set (w := clear_outs (run P h')). assert (L : m_ts (fst (load P v root err (w_mgr w))) = []).
  { unfold load. change ((reset P;;; put_config root;;; match err with Some e => plift (Err e) | None => loadAnchors P v (t_getitem root w_validator_anchor) None end) (w_mgr w)) with ((match err with Some e => plift (Err e) | None => loadAnchors P v (t_getitem root w_validator_anchor) None end) (fst (put_config root (fst (reset P (w_mgr w)))))).
    destruct err; [reflexivity|]. exact (proj1 (st_loadAnchors P v _ None _)). }
  destruct (load P v root err (w_mgr w)) as [m r]. exact L.
Qed.
Lemma era_noload : forall h0 h1, existsb loads h1 = false -> fst (era (h0 ++ h1)) = fst (era h0).
Proof.
  intros h0 h1. induction h1 as [|[v e] h1 IH] using rev_ind; intros N; [rewrite app_nil_r; reflexivity|]. rewrite existsb_app in N. apply orb_false_iff in N. destruct N as [N1 N2]. rewrite app_assoc, era_snoc. cbn [existsb] in N2. rewrite orb_false_r in N2. destruct e; [discriminate N2| | |]; apply IH; exact N1.
Qed.
Lemma good_app : forall h0 h1, good_history P (h0 ++ h1) -> good_history P h0.
Proof. intros h0 h1 [A B]. apply Forall_app in B. split; [exact A|apply B]. Qed.
Lemma dealt_snoc : forall h0 h1 v e c p k ts, dealt h0 (h1 ++ [(v, e)]) c p k ts <-> dealt h0 h1 c p k ts \/ (In (AVerified c p) (outs (run P (h0 ++ h1 ++ [(v, e)]))) /\ stamp_of p k ts).
Proof. intros h0 h1 v e c p k ts. unfold dealt. rewrite trace_from_snoc. rewrite in_app_iff. tauto. Qed.
Lemma calm_stamp : forall l c p k ts, Forall calm l -> In (AVerified c p) l -> stamp_of p k ts -> False.
Proof. intros l c p k ts F I S. rewrite Forall_forall in F. specialize (F _ I). destruct p; [exact S|exact F]. Qed.
Lemma in_stamped : forall c0 n l c p k ts k0 ts0, Forall calm l -> stamp_of (PInterest n) k0 ts0 -> In (AVerified c p) (AVerified c0 (PInterest n) :: l) -> stamp_of p k ts -> k = k0 /\ ts = ts0.
Proof. intros c0 n l c p k ts k0 ts0 F S0 [E|I] S; [injection E as _ <-; exact (stamp_fun _ _ _ _ _ S S0)|elim (calm_stamp _ _ _ _ _ F I S)]. Qed.
Lemma requires_true : forall h, good_history P h -> ~ trusts_any (fst (era h)) -> m_requires (w_mgr (run P h)) = true.
Proof. intros h G N. destruct (history_ok P h G) as [I _]. destruct (m_requires (w_mgr (run P h))) eqn:E; [reflexivity|]. elim N. exact (I_requires _ _ _ _ I E). Qed.
Lemma sub_keys : forall (d : dict str Z) (d' : dict str Z), (forall u x, In (u, x) d' -> In (u, x) d) -> incl (dkeys d') (dkeys d).
Proof. intros d d' H u I. unfold dkeys in *. apply in_map_iff in I. destruct I as ([u' x] & <- & I). apply H in I. apply (in_map fst) in I. exact I. Qed.
Notation tsof h := (m_ts (w_mgr (run P h))).
Lemma dealt_timed : forall h0 h1 v e, good_history P (h0 ++ h1) -> ~ trusts_any (fst (era (h0 ++ h1))) -> loads (v, e) = false ->
  (tsof (h0 ++ h1 ++ [(v, e)]) = tsof (h0 ++ h1) /\ (forall c p k ts, dealt h0 (h1 ++ [(v, e)]) c p k ts <-> dealt h0 h1 c p k ts) /\ Forall calm (outs (run P (h0 ++ h1 ++ [(v, e)])))) \/
  exists c0 n k0 ts0, stamp_of (PInterest n) k0 ts0 /\ fresh_after P v (tsof (h0 ++ h1)) k0 ts0 /\ stamped P (tsof (h0 ++ h1)) (tsof (h0 ++ h1 ++ [(v, e)])) k0 ts0 /\
    dealt h0 (h1 ++ [(v, e)]) c0 (PInterest n) k0 ts0 /\ (forall c p k ts, dealt h0 (h1 ++ [(v, e)]) c p k ts -> dealt h0 h1 c p k ts \/ (k = k0 /\ ts = ts0)) /\
    (forall c p k ts, In (AVerified c p) (outs (run P (h0 ++ h1 ++ [(v, e)]))) -> stamp_of p k ts -> k = k0 /\ ts = ts0).
Proof.
  intros h0 h1 v e G N L. destruct (do_timed (h0 ++ h1) v e) as (root & T); [apply (B_world _ _ _ (balance_ok P (h0 ++ h1)))|exact L|apply requires_true; assumption|]. rewrite <- app_assoc in T.
  destruct T as [[E F]|(c0 & n & k0 & ts0 & _ & (l & El & Fl) & S0 & Fr & St)].
  - left. split; [exact E|]. split; [|exact F]. intros c p k ts. rewrite dealt_snoc. split; [intros [D|[I S]]; [exact D|elim (calm_stamp _ _ _ _ _ F I S)]|auto].
  - right. exists c0, n, k0, ts0. split; [exact S0|]. split; [exact Fr|]. split; [exact St|]. split; [apply dealt_snoc; right; rewrite El; split; [left; reflexivity|exact S0]|].
    assert (X : forall c p k ts, In (AVerified c p) (outs (run P (h0 ++ h1 ++ [(v, e)]))) -> stamp_of p k ts -> k = k0 /\ ts = ts0) by (intros c p k ts I S; rewrite El in I; exact (in_stamped _ _ _ _ _ _ _ _ _ Fl S0 I S)).
    split; [|exact X]. intros c p k ts D. apply dealt_snoc in D. destruct D as [D|[I S]]; [left; exact D|right; exact (X _ _ _ _ I S)].
Qed.
Lemma tracked_ok : forall h0 h1 ks, begins h0 -> existsb loads h1 = false -> good_history P (h0 ++ h1) -> ~ trusts_any (fst (era h0)) -> within h0 h1 ks -> tracked h0 h1 ks.
Proof.
  intros h0 h1 ks Bg. induction h1 as [|[v e] h1 IH] using rev_ind; intros Nl G N Wi.
  - pose proof (begin_ts h0 Bg) as E. constructor; rewrite app_nil_r, E; [intros _; constructor|intros u x []|intros _ c p k ts [[] _]].
  - rewrite existsb_app in Nl. apply orb_false_iff in Nl. destruct Nl as [Nl L]. cbn [existsb] in L. rewrite orb_false_r in L. rewrite app_assoc in G. pose proof (good_app _ _ G) as G'. rewrite <- app_assoc in G.
    destruct (IH Nl G' N) as [A B C]; [intros c p k ts D; apply (Wi c p k ts); apply dealt_snoc; left; exact D|].
    destruct (dealt_timed h0 h1 v e G') as [(E & D & _)|(c0 & n & k0 & ts0 & S0 & Fr & [St1 St2] & D0 & D & _)]; [rewrite era_noload; assumption|exact L| |].
    + constructor; rewrite E; [exact A| |].
      * intros u x I. destruct (B u x I) as (c & p & k & Dl & U). exists c, p, k. split; [apply D; exact Dl|exact U].
      * intros Bd c p k ts Dl. apply (C Bd c p k ts). apply D. exact Dl.
    + assert (From : forall u x, In (u, x) (dset zlist_eqb (tsof (h0 ++ h1)) (uri k0) ts0) -> exists c p k, dealt h0 (h1 ++ [(v, e)]) c p k x /\ uri k = u).
      { intros u x I. destruct (dset_in_str _ _ _ _ _ I) as [X|X]; [injection X as -> ->; eauto 8|]. destruct (B u x X) as (c & p & k & Dl & U). exists c, p, k. split; [apply dealt_snoc; left; exact Dl|exact U]. }
      assert (Nd : zlen ks < p_maxKeys P -> NoDup (dkeys (dset zlist_eqb (tsof (h0 ++ h1)) (uri k0) ts0))).
      { intros Bd. apply (dset_uniq zlist_eqb Dall Hstr); [apply dom_all|exact Logic.I|exact (A Bd)]. }
      assert (Eq : zlen ks < p_maxKeys P -> tsof (h0 ++ h1 ++ [(v, e)]) = dset zlist_eqb (tsof (h0 ++ h1)) (uri k0) ts0).
      { intros Bd. apply St1. apply Z.le_lt_trans with (2 := Bd). unfold zlen. apply Nat2Z.inj_le. replace (length (dset zlist_eqb (tsof (h0 ++ h1)) (uri k0) ts0)) with (length (dkeys (dset zlist_eqb (tsof (h0 ++ h1)) (uri k0) ts0))) by (unfold dkeys; apply map_length).
        apply NoDup_incl_length; [exact (Nd Bd)|]. intros u I. unfold dkeys in I. apply in_map_iff in I. destruct I as ([u' x] & <- & I). destruct (From _ _ I) as (c & p & k & Dl & U). cbn [fst]. rewrite <- U. exact (Wi _ _ _ _ Dl). }
      constructor.
      * intros Bd. rewrite (Eq Bd). exact (Nd Bd).
      * intros u x I. apply St2 in I. exact (From u x I).
      * intros Bd c p k ts Dl. rewrite (Eq Bd). rewrite (dset_get zlist_eqb Dall Hstr) by (try apply dom_all; exact Logic.I). destruct (zlist_eqb (uri k0) (uri k)) eqn:Eu.
        -- exists ts0. split; [reflexivity|]. apply zlist_eqb_eq in Eu. destruct (D _ _ _ _ Dl) as [Old|[_ ->]]; [|lia]. destruct (C Bd _ _ _ _ Old) as (last & El & Le). unfold fresh_after in Fr. rewrite Eu, El in Fr. lia.
        -- destruct (D _ _ _ _ Dl) as [Old|[-> _]]; [exact (C Bd _ _ _ _ Old)|]. rewrite zeqb_self in Eu. discriminate Eu.
Qed.
Lemma stamps_ok : forall h0 h1 v e c p k ts ks, begins h0 -> existsb loads (h1 ++ [(v, e)]) = false -> good_history P (h0 ++ h1 ++ [(v, e)]) -> ~ trusts_any (fst (era h0)) ->
  In (AVerified c p) (outs (run P (h0 ++ h1 ++ [(v, e)]))) -> stamp_of p k ts -> within h0 h1 ks ->
  (zlen ks < p_maxKeys P -> forall c' p' k' ts', dealt h0 h1 c' p' k' ts' -> uri k' = uri k -> ts' < ts) /\
  ((forall c' p' k' ts', dealt h0 h1 c' p' k' ts' -> uri k' <> uri k) -> e_now v - p_grace P < ts < e_now v + p_grace P).
Proof.
  intros h0 h1 v e c p k ts ks Bg Nl G N I S Wi. rewrite existsb_app in Nl. apply orb_false_iff in Nl. destruct Nl as [Nl L]. cbn [existsb] in L. rewrite orb_false_r in L. rewrite app_assoc in G. pose proof (good_app _ _ G) as G'.
  destruct (tracked_ok h0 h1 ks Bg Nl G' N Wi) as [A B C].
  destruct (dealt_timed h0 h1 v e G') as [(_ & _ & F)|(c0 & n & k0 & ts0 & S0 & Fr & _ & _ & _ & D)]; [rewrite era_noload; assumption|exact L|elim (calm_stamp _ _ _ _ _ F I S)|]. destruct (D _ _ _ _ I S) as [-> ->]. unfold fresh_after in Fr. split.
  - intros Bd c' p' k' ts' Dl U. destruct (C Bd _ _ _ _ Dl) as (last & El & Le). rewrite <- U, El in Fr. lia.
  - intros No. destruct (dget zlist_eqb (tsof (h0 ++ h1)) (uri k0)) as [last|] eqn:El; [|exact Fr]. apply dget_in_str in El. destruct (B _ _ El) as (c' & p' & k' & Dl & U). elim (No _ _ _ _ Dl U).
Qed.
End Stamps.
