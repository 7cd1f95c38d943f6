(** * C85, C86: the policy manager that reads a configuration *)
From Verif Require Import Base BaseLemmas NameModel NameSpec NameProofs UriModel BlobModel DictModel DictProofs WireModel CtlModel MatchModel CmdModel CmdSpec HierModel HierSpec RegexModel RegexSpec
  InfoModel InfoSpec ConfModel ConfSpec ConfProofs CertModel CertSpec CertProofs CertProps CpmModel CpmSpec CpmProofs CpmProofs2.
From Verif Require TlvSpec CmdProps.
Local Open Scope res_scope.

(** ** C85 *)
(** After every history of calls and network events, onVerified is called only for a packet the
    application has asked about, and only if the configuration in force trusts everything or the packet
    is authentic under it: a chain of signatures that rules allow leads to a certificate of the
    configuration. *)
Theorem C85_only_authentic : forall P h v e call p cfg envs, good_history P (h ++ [(v, e)]) -> era (h ++ [(v, e)]) = (cfg, envs) ->
  In (AVerified call p) (outs (run P (h ++ [(v, e)]))) ->
  (exists v', In (v', EVerify call p) (h ++ [(v, e)])) /\ (trusts_any cfg \/ authentic P cfg envs v p).
Proof.
  intros P h v e call p cfg envs G E I. assert (G' : good_history P h) by exact (good_app P h [(v, e)] G).
  destruct (step_ok P h v e G (history_ok P h G')) as [_ R]. rewrite Forall_forall in R. specialize (R _ I). cbn [reported] in R. rewrite E in R. cbn [fst snd] in R. exact R.
Qed.
(** A configuration without trust anchors and fixed signers verifies nothing. *)
Lemma authentic_root : forall P cfg envs v p, authentic P cfg envs v p -> exists c, installed P cfg envs c.
Proof.
  intros P cfg envs. apply (authentic_ind2 P cfg envs (fun _ _ => exists c, installed P cfg envs c) (fun _ => exists c, installed P cfg envs c)); intros; eauto.
Qed.
Theorem C85_nothing_trusted : forall P h v e cfg envs, good_history P (h ++ [(v, e)]) -> era (h ++ [(v, e)]) = (cfg, envs) ->
  anchors_of cfg = [] -> (forall r ck, In r (rules_of cfg) -> first w_checker r = Some ck -> value w_type ck <> Some w_fixed_signer) ->
  forall call p, ~ In (AVerified call p) (outs (run P (h ++ [(v, e)]))).
Proof.
  intros P h v e cfg envs G E Na Nf call p I. destruct (C85_only_authentic P h v e call p cfg envs G E I) as [_ [(a & Ia & _)|A]]; [rewrite Na in Ia; exact Ia|].
  destruct (authentic_root _ _ _ _ _ A) as (c & v' & _ & [(a & Ia & _)|(r & ck & s & b & id & Ir & Eck & Et & _)]); [rewrite Na in Ia; exact Ia|exact (Nf r ck Ir Eck Et)].
Qed.

(** ** A configuration with a rule and a trust anchor *)
Definition leaf (t : str) : tree := Tree (Some t) [].
Definition sample_config (for_ rel uri s64 : str) : tree :=
  Tree None [(w_validator, Tree None [
    (w_rule, Tree None [(w_for, leaf for_); (w_checker, Tree None [(w_type, leaf w_customized); (w_key_locator, Tree None [(w_name, leaf uri); (w_relation, leaf rel)])])]);
    (w_trust_anchor, Tree None [(w_type, leaf w_base64); (w_base64_string, leaf s64)])])].

Section Sample.
Variable P : params.
Variables (v0 v1 : env) (rel : relation) (uri s64 : str) (c : data) (q : name).
Hypothesis Hc : p_from64 P s64 = Ok c.
Hypothesis Gc : good_name (d_name c).
Hypothesis Fc : cert_checkFormat c = Ok tt.
Variable t : Z.
Hypothesis Ht : p_notAfter P c = Ok t.
Hypothesis T0 : e_now v0 <= t.
Hypothesis Hq : n_set uri = Ok q.
Notation cfg := (sample_config w_data (relation_word rel) uri s64).
Notation ins := (CInsert (e_now v0) c).
Notation crun ops := (cc_run d_name (p_notAfter P) cert_checkFormat (p_lifetime P) ops).
Lemma load_run : exists s uri', crun [ins] = Ok s /\ run P [(v0, ELoad cfg None)] = World (Mgr s [(s64, uri')] [] true cfg (cc_new (p_lifetime P)) [] []) [] 0.
Proof.
  unfold run. cbn [fold_left fst snd]. unfold do. cbn [clear_outs world_new w_mgr w_pend w_next mgr_new m_cache m_fixed m_ts m_requires m_config m_rcache m_dirs].
  unfold load. change (t_getitem cfg w_validator_anchor) with [Tree None [(w_type, leaf w_base64); (w_base64_string, leaf s64)]].
  unfold pbind at 1 2. cbn [reset put_config m_cache m_fixed m_ts m_requires m_config m_rcache m_dirs m_outs]. cbn [loadAnchors].
  change (firstValue (Tree None [(w_type, leaf w_base64); (w_base64_string, leaf s64)]) w_type) with (Ok (Some w_base64)). change (firstValue (Tree None [(w_type, leaf w_base64); (w_base64_string, leaf s64)]) w_base64_string) with (Ok (Some s64)).
  unfold pbind, plift, pget, pret. change (is_word (Some w_base64) w_dir) with false. change (is_word (Some w_base64) w_any) with false. change (is_word (Some w_base64) w_file) with false. change (is_word (Some w_base64) w_base64) with true. cbv iota.
  cbn [lookupCertificate]. unfold pbind, plift, pget, pret. cbn [m_fixed dget]. unfold as_cert. rewrite Hc. cbn [rbind]. rewrite Fc. cbn [rbind]. rewrite slice_removelast.
  unfold put_fixed, cinsert. cbn [m_cache m_fixed m_ts m_requires m_config m_rcache m_dirs m_outs]. unfold pbind, plift, put_cache. cbn [dset]. change (cc_clear (cc_new (p_lifetime P))) with (@cc_new data (p_lifetime P)).
  unfold cc_run. cbn [fold_left rbind cc_step]. destruct (cc_insert d_name (p_notAfter P) cert_checkFormat (cc_new (p_lifetime P)) (e_now v0) c) as [s r] eqn:Ei.
  assert (r = Ok tt) by (unfold cc_insert in Ei; rewrite Ht in Ei; replace (t <? e_now v0) with false in Ei by lia; rewrite Fc in Ei; cbv zeta in Ei; apply (f_equal snd) in Ei; change (snd (s, r)) with r in Ei; rewrite <- Ei; destruct (din n_equals _ _); reflexivity). subst r. cbn [fst snd m_cache m_fixed m_ts m_requires m_config m_rcache m_dirs m_outs]. eexists. eexists. split; reflexivity.
Qed.
Variables (call : Z) (d : data) (kl : keyLocator).
Hypothesis Hk : kl_ofSignature (d_sig d) = Some kl.
Hypothesis Pk : public_key_signature (d_sig d).
Hypothesis Kt : kl_type kl = Some 1.
Hypothesis Gk : good_name (kl_name kl).
Hypothesis Nk : kl_name kl <> [].
Hypothesis Rk : related rel q (kl_name kl).
Hypothesis Uk : under_name (kl_name kl) (d_name c).
Hypothesis D0 : 0 <= p_maxDepth P.
Notation k := (kl_name kl).
Lemma find_cert : forall ops s, good d_name (ins :: ops) -> Forall (fun o => o = CFind (e_now v1)) ops -> crun (ins :: ops) = Ok s ->
  exists s', cc_find_name s (e_now v1) k = Ok (s', if e_now v1 <? Z.min t (e_now v0 + p_lifetime P) then Some c else None) /\ crun (ins :: ops ++ [CFind (e_now v1)]) = Ok s'.
Proof.
  intros ops s G F E. destruct (C41_find_name d_name (p_notAfter P) cert_checkFormat (p_lifetime P) (ins :: ops) (e_now v1) k s G Gk E) as (s' & r & Ef & Er & H). exists s'. split; [|exact Er].
  assert (On : forall c' e, cached d_name (p_notAfter P) cert_checkFormat (p_lifetime P) (ins :: ops) c' e -> c' = c /\ e = Z.min t (e_now v0 + p_lifetime P)).
  { intros c' e (o1 & t0 & o2 & Eo & _ & (na & En & ->) & _). destruct o1 as [|o o1]; cbn [app] in Eo; injection Eo as E1 E2; [subst; split; [reflexivity|rewrite Ht in En; injection En as <-; reflexivity]|]. rewrite E2 in F. apply Forall_app in F. destruct F as [_ F]. inversion F as [|? ? X _]. discriminate X. }
  rewrite Ef. f_equal. f_equal. destruct (Z.ltb_spec (e_now v1) (Z.min t (e_now v0 + p_lifetime P))) as [L|L].
  - destruct r as [c'|]; [destruct H as (e & Ca & _); destruct (On c' e Ca) as [-> _]; reflexivity|]. elim (H c (Z.min t (e_now v0 + p_lifetime P))); [|exact L|exact Uk].
    exists [], (e_now v0), ops. split; [reflexivity|]. split; [exists t; auto|]. split; [exists t; auto|]. rewrite Forall_forall in F. split; [intros t' c' I; apply F in I; discriminate I|]. split; [intros I; apply F in I; discriminate I|]. split; [intros I; apply F in I; discriminate I|]. intros t' I. apply F in I. injection I as ->. exact L.
  - destruct r as [c'|]; [|reflexivity]. destruct H as (e & Ca & Le & _). destruct (On c' e Ca) as [_ ->]. lia.
Qed.
Lemma find_none : forall ops s, Forall (fun o => o = CFind (e_now v1)) ops -> crun ops = Ok s -> exists s', cc_find_name s (e_now v1) k = Ok (s', None) /\ crun (ops ++ [CFind (e_now v1)]) = Ok s'.
Proof.
  intros ops s F E. assert (G : good d_name ops) by (rewrite Forall_forall in F; intros o I; apply F in I; subst o; exact Logic.I).
  destruct (C41_find_name d_name (p_notAfter P) cert_checkFormat (p_lifetime P) ops (e_now v1) k s G Gk E) as (s' & r & Ef & Er & H). exists s'. split; [|exact Er]. rewrite Ef. destruct r as [c'|]; [|reflexivity].
  destruct H as (e & (o1 & t0 & o2 & Eo & _) & _). rewrite Eo in F. apply Forall_app in F. destruct F as [_ F]. inversion F as [|? ? X _]. discriminate X.
Qed.
Lemma sample_gci : forall m s ops rs rops, m_config m = cfg -> m_dirs m = [] -> m_cache m = s -> m_rcache m = rs -> crun (ins :: ops) = Ok s -> crun rops = Ok rs -> Forall (fun o => o = CFind (e_now v1)) ops -> Forall (fun o => o = CFind (e_now v1)) rops ->
  exists m' s' rs', getCertificateInterest P v1 0 w_data (d_name d) (d_sig d) m = (m', Ok (Some (if e_now v1 <? Z.min t (e_now v0 + p_lifetime P) then [] else k))) /\
   m_cache m' = s' /\ m_rcache m' = rs' /\ (exists ops', crun (ins :: ops') = Ok s' /\ Forall (fun o => o = CFind (e_now v1)) ops') /\ (exists rops', crun rops' = Ok rs' /\ Forall (fun o => o = CFind (e_now v1)) rops') /\ m_outs m' = m_outs m.
Proof.
  intros m s ops rs rops Em Ed Es Ers Eo Er Fo Fr.
  assert (Fm : findMatchingRule P (d_name d) w_data m = (m, Ok (Some (Tree None [(w_for, leaf w_data); (w_checker, Tree None [(w_type, leaf w_customized); (w_key_locator, Tree None [(w_name, leaf uri); (w_relation, leaf (relation_word rel))])])])))) by (unfold findMatchingRule, pbind, pget, plift; rewrite Em; reflexivity).
  set (r := Tree None _) in Fm.
  assert (Cs : checkSignatureMatch P v1 k (d_name d) r m = (m, Ok true)).
  { unfold checkSignatureMatch. change (firstTree r w_checker) with (Ok (Tree None [(w_type, leaf w_customized); (w_key_locator, Tree None [(w_name, leaf uri); (w_relation, leaf (relation_word rel))])])). set (ck := Tree None _). unfold pbind at 1, plift at 1. change (firstValue ck w_type) with (Ok (Some w_customized)). unfold pbind, plift.
    change (is_word (Some w_customized) w_fixed_signer) with false. change (is_word (Some w_customized) w_hierarchical) with false. change (is_word (Some w_customized) w_customized) with true. cbv iota.
    unfold checkCustomized. change (firstTree ck w_key_locator) with (Ok (Tree None [(w_name, leaf uri); (w_relation, leaf (relation_word rel))])). cbn [rbind]. set (l := Tree None _). change (getFirstValue l w_relation) with (Some (relation_word rel)). change (firstValue l w_name) with (Ok (Some uri)). cbv iota. cbn [rbind name_value]. rewrite Hq. cbn [rbind].
    replace (matchesRelation k q (Some (relation_word rel))) with true; [reflexivity|]. symmetry. apply rel_check. exists rel. split; [reflexivity|exact Rk]. }
  assert (Gi : good d_name (ins :: ops)). { intros o [<-|I]; [exact Gc|]. rewrite Forall_forall in Fo. apply Fo in I. subst o. exact Logic.I. }
  destruct (find_none rops rs Fr Er) as (rs' & Ef & Er'). destruct (find_cert ops s Gi Fo Eo) as (s' & Ef' & Eo').
  unfold getCertificateInterest. replace (p_maxDepth P <? 0) with false by lia. unfold pbind at 1. rewrite Fm, Hk. cbv zeta. replace (zlen k =? 0) with false by (destruct k as [|x0 k0]; [elim (Nk eq_refl)|rewrite zlen_cons; pose proof (zlen_nonneg _ k0); lia]). cbv iota.
  rewrite (pbind_ok _ _ _ _ _ _ _ Cs). cbn [negb]. unfold refreshAnchors, findCertificate, pbind, pget, pret, rfind, cfind. rewrite Ed. cbn [refreshDirs pret]. rewrite Ers, Ef. unfold put_rcache, pbind, pret. cbn [m_cache]. rewrite Es, Ef'. unfold put_cache.
  eexists. exists s', rs'. split; [destruct (e_now v1 <? Z.min t (e_now v0 + p_lifetime P)); reflexivity|]. cbn [m_cache m_rcache m_outs]. split; [reflexivity|]. split; [reflexivity|]. split; [exists (ops ++ [CFind (e_now v1)]); split; [exact Eo'|apply Forall_app; auto]|]. split; [exists (rops ++ [CFind (e_now v1)]); split; [exact Er'|apply Forall_app; auto]|reflexivity].
Qed.
Variables b key : bytes.
Hypothesis Hb : p_signed P (PData d) = Ok b.
Hypothesis Hkey : d_content c = Some key.
Hypothesis Hv : p_verifyKey P (d_sig d) b key = Ok true.
Hypothesis He : e_express v1 k = None.
Lemma sample_outs : outs (run P [(v0, ELoad cfg None); (v1, EVerify call (PData d))]) = if e_now v1 <? Z.min t (e_now v0 + p_lifetime P) then [AVerified call (PData d)] else [AExpress call k].
Proof.
  destruct load_run as (s & uri' & Es & Er). change ([(v0, ELoad cfg None); (v1, EVerify call (PData d))]) with ([(v0, ELoad cfg None)] ++ [(v1, EVerify call (PData d))]). rewrite run_snoc, Er. unfold do, start, verifyPacket. cbn [clear_outs w_mgr w_pend w_next m_cache m_fixed m_ts m_requires m_config m_rcache m_dirs]. set (m := Mgr _ _ _ _ _ _ _ _).
  unfold pbind at 1. unfold pget at 1. change (m_requires m) with true. cbv iota. cbn [check].
  destruct (sample_gci m s [] (cc_new (p_lifetime P)) [] eq_refl eq_refl eq_refl eq_refl Es eq_refl (Forall_nil _) (Forall_nil _)) as (m' & s' & rs' & Eg & E1 & E2 & (ops' & Eo & Fo) & (rops' & Ero & Fro) & E3).
  unfold pbind at 1. unfold plift at 1. unfold pbind at 1. unfold plift at 1. cbn [extractSignature]. rewrite (pbind_ok _ _ _ _ _ _ _ Eg). destruct (e_now v1 <? Z.min t (e_now v0 + p_lifetime P)) eqn:L.
  - change (0 <? zlen (@nil comp)) with false. cbv iota. unfold pbind at 1. unfold pret at 1. unfold pbind at 1. unfold plift at 1. rewrite Hb.
    assert (Ev : exists m'', verify P v1 (d_sig d) b m' = (m'', Ok true) /\ m_outs m'' = m_outs m').
    { unfold verify. rewrite Hk, Kt. change (1 =? 1) with true. cbv iota. assert (Gi : good d_name (ins :: ops')). { intros o [<-|I]; [exact Gc|]. rewrite Forall_forall in Fo. apply Fo in I. subst o. exact Logic.I. }
      destruct (find_none rops' rs' Fro Ero) as (rs2 & Ef & _). destruct (find_cert ops' s' Gi Fo Eo) as (s2 & Ef' & _). rewrite L in Ef'. unfold findCertificate, pbind, rfind, cfind, pret. rewrite E2, Ef. unfold put_rcache, pbind. cbn [m_cache]. rewrite E1, Ef'. unfold put_cache. rewrite Hkey.
      assert (Nk' : key <> []). { intros ->. unfold cert_checkFormat in Fc. destruct (cert_isValidName (d_name c)) as [x|]; [|discriminate Fc]. cbn [rbind] in Fc. rewrite Hkey in Fc. destruct (negb x); [discriminate Fc|]. destruct (negb (mi_type (d_meta c) =? 2)); [discriminate Fc|]. destruct (mi_freshness (d_meta c)) as [f|]; [|discriminate Fc]. destruct (f <? 0); discriminate Fc. }
      destruct key as [|x0 key0]; [elim (Nk' eq_refl)|]. assert (Vs : verifySignature P (d_sig d) b (x0 :: key0) = Ok true) by (revert Pk Hv; destruct (d_sig d); cbn [public_key_signature verifySignature]; tauto). rewrite Vs. unfold plift. eexists. split; [reflexivity|reflexivity]. }
    destruct Ev as (m'' & Ev & E4). rewrite (pbind_ok _ _ _ _ _ _ _ Ev). unfold pbind, emit, pret. cbn [fst snd]. unfold outs. cbn [w_mgr m_outs]. rewrite E4, E3. reflexivity.
  - replace (0 <? zlen k) with true by (destruct k as [|x0 k0]; [elim (Nk eq_refl)|rewrite zlen_cons; pose proof (zlen_nonneg _ k0); lia]). cbv iota. unfold pret, express. cbn [q_name q_cont root_call w_mgr w_pend w_next]. rewrite He. cbn [fst]. unfold outs. cbn [w_mgr emit fst m_outs]. rewrite E3. reflexivity.
Qed.
End Sample.
(** A packet that is signed by a trust anchor the configuration gives, and whose key locator a rule
    allows, is verified at once; *)
Theorem C85_anchor_verifies : forall P v0 v1 rel uri s64 c q t call d kl b key,
  (* the trust anchor *)
  p_from64 P s64 = Ok c -> good_name (d_name c) -> cert_checkFormat c = Ok tt -> p_notAfter P c = Ok t -> e_now v0 <= t -> d_content c = Some key ->
  (* the rule *)
  n_set uri = Ok q -> related rel q (kl_name kl) ->
  (* the packet *)
  kl_ofSignature (d_sig d) = Some kl -> public_key_signature (d_sig d) -> kl_type kl = Some 1 -> good_name (kl_name kl) -> kl_name kl <> [] -> under_name (kl_name kl) (d_name c) ->
  p_signed P (PData d) = Ok b -> p_verifyKey P (d_sig d) b key = Ok true -> 0 <= p_maxDepth P ->
  e_express v1 (kl_name kl) = None ->
  (e_now v1 < t -> e_now v1 < e_now v0 + p_lifetime P ->
   outs (run P [(v0, ELoad (sample_config w_data (relation_word rel) uri s64) None); (v1, EVerify call (PData d))]) = [AVerified call (PData d)]) /\
  (* but when the lifetime of the certificate cache is over, the anchor is forgotten: it is asked for in the network *)
  (e_now v0 + p_lifetime P <= e_now v1 ->
   outs (run P [(v0, ELoad (sample_config w_data (relation_word rel) uri s64) None); (v1, EVerify call (PData d))]) = [AExpress call (kl_name kl)]).
Proof.
  intros P v0 v1 rel uri s64 c q t call d kl b key Hc Gc Fc Ht T0 Hkey Hq Rk Hk Pk Kt Gk Nk Uk Hb Hv D0 He.
  pose proof (sample_outs P v0 v1 rel uri s64 c q Hc Gc Fc t Ht T0 Hq call d kl Hk Pk Kt Gk Nk Rk Uk D0 b key Hb Hkey Hv He) as E. split; intros; rewrite E.
  - replace (e_now v1 <? Z.min t (e_now v0 + p_lifetime P)) with true by lia. reflexivity.
  - replace (e_now v1 <? Z.min t (e_now v0 + p_lifetime P)) with false by lia. reflexivity.
Qed.

(** ** C86 *)
(** There are never more answers (onVerified or onValidationFailed) than calls of verifyData and
    verifyInterest, *)
Theorem C86_one_answer : forall P h call, count (answers call) (trace P h) <= count (asks call) h.
Proof. intros P h call. pose proof (B_answers P h _ (balance_ok P h) call) as B. assert (0 <= psum (fun _ => 1) call (w_pend (run P h))) by (apply psum_nonneg, Forall_forall; intros; lia). lia. Qed.
(** and a call sends at most three Interests for each step up to the maximum depth. *)
Theorem C86_interests : forall P h call, count (sends call) (trace P h) <= 3 * Z.max 0 (p_maxDepth P + 1) * count (asks call) h.
Proof.
  intros P h call. pose proof (B_sends P h _ (balance_ok P h) call) as B. pose proof (B_world P h _ (balance_ok P h)) as [W _ _]. assert (0 <= psum (pot P) call (w_pend (run P h))) by (apply psum_nonneg, Forall_impl with (2 := W); intros x [R _]; unfold pot; lia). unfold budget in B. lia.
Qed.
(** No call is lost at first: it raises, or answers once, or sends one Interest and waits. *)
Theorem C86_first_step : forall P h v call p, let w := run P h in let r := do P v (EVerify call p) w in
  match snd r with
  | Some _ => forall n, ~ In (AExpress call n) (outs (fst r))
  | None => (exists q, outs (fst r) = [AVerified call q] \/ outs (fst r) = [AFailed call q]) \/ (exists n, outs (fst r) = [AExpress call n])
  end.
Proof.
  intros P h v call p w r. subst r. cbn [do]. destruct (start_added P v (KApp call) p 0 (clear_outs w) Logic.I eq_refl) as [(_ & _ & F & O & _)|(q & _ & _ & _ & _ & _ & E & X & _)].
  - destruct (snd (start P v (KApp call) p 0 (clear_outs w))).
    + intros n I. destruct (few_counts _ call _ F) as [Z0 _]. unfold count in Z0. apply zlen_zero in Z0. assert (In (AExpress call n) (List.filter (sends call) (outs (fst (start P v (KApp call) p 0 (clear_outs w)))))) by (apply filter_In; split; [exact I|cbn; lia]). rewrite Z0 in H. exact H.
    + left. destruct (O eq_refl) as [[q E]|[q E]]; exists q; auto.
  - rewrite X. right. exists (q_name q). exact E.
Qed.
(** An Interest that is not answered is sent two more times; then onValidationFailed is called. *)
Lemma take_last : forall l x, ~ In (pd_id x) (map pd_id l) -> take (pd_id x) (l ++ [x]) = Some x /\ drop (pd_id x) (l ++ [x]) = l.
Proof.
  induction l as [|y l IH]; intros x N.
  - unfold take, drop. cbn [app find List.filter]. rewrite Nat.eqb_refl. auto.
  - cbn [map] in N. destruct (IH x) as [A B]; [intros X; apply N; right; exact X|]. unfold take, drop in *. cbn [app find List.filter]. destruct (Nat.eqb_spec (pd_id y) (pd_id x)) as [E|E]; [elim N; left; exact E|]. cbn [negb]. rewrite A, B. auto.
Qed.
Theorem C86_timeouts : forall P h v call p n v1 v2 v3, outs (run P (h ++ [(v, EVerify call p)])) = [AExpress call n] ->
  e_express v1 n = None -> e_express v2 n = None ->
  let i := w_next (run P h) in let h1 := h ++ [(v, EVerify call p); (v1, ETimeout i)] in let h2 := h1 ++ [(v2, ETimeout (S i))] in let h3 := h2 ++ [(v3, ETimeout (S (S i)))] in
  outs (run P h1) = [AExpress call n] /\ outs (run P h2) = [AExpress call n] /\ outs (run P h3) = [AFailed call p] /\ w_pend (run P h3) = w_pend (run P h).
Proof.
  intros P h v call p n v1 v2 v3 E E1 E2 i h1 h2 h3. pose proof (B_world _ _ _ (balance_ok P h)) as [_ _ Wn].
  assert (Fresh : forall j, (w_next (run P h) <= j)%nat -> ~ In j (map pd_id (w_pend (run P h)))). { intros j L X. apply in_map_iff in X. destruct X as (y & Ey & Iy). rewrite Forall_forall in Wn. specialize (Wn y Iy). lia. }
  rewrite run_snoc in E. cbn [do] in E. destruct (start_added P v (KApp call) p 0 (clear_outs (run P h)) Logic.I eq_refl) as [(_ & _ & F & _)|(q & A & B & C & D & _ & O & _)].
  { destruct (few_counts _ call _ F) as [Z0 _]. rewrite E in Z0. unfold count in Z0. cbn [List.filter sends] in Z0. rewrite Z.eqb_refl in Z0. discriminate Z0. }
  rewrite O in E. injection E as E. cbn [clear_outs w_pend w_next] in A, B. fold i in A, B.
  assert (R0 : run P (h ++ [(v, EVerify call p)]) = fst (start P v (KApp call) p 0 (clear_outs (run P h)))) by apply run_snoc.
  assert (Step : forall g w' q' r vv j, run P g = w' -> w_pend w' = w_pend (run P h) ++ [Pend j q' r] -> (w_next (run P h) <= j)%nat -> q_cont q' = KCert p 0 (KApp call) -> q_name q' = n -> w_next w' = S j -> (0 < r -> e_express vv n = None) ->
    let w2 := run P (g ++ [(vv, ETimeout j)]) in if 0 <? r then outs w2 = [AExpress call n] /\ w_pend w2 = w_pend (run P h) ++ [Pend (S j) q' (r - 1)] /\ w_next w2 = S (S j) else outs w2 = [AFailed call p] /\ w_pend w2 = w_pend (run P h)).
  { intros g w' q' r vv j Eg Ep Lj Eq En Ex He w2. subst w2. rewrite run_snoc, Eg. cbn [do clear_outs w_pend w_mgr w_next]. rewrite Ep. destruct (take_last (w_pend (run P h)) (Pend j q' r)) as [T1 T2]; [exact (Fresh j Lj)|]. cbn [pd_id] in T1, T2. rewrite T1, T2. cbn [pd_retry pd_req]. destruct (0 <? r) eqn:Er.
    - unfold express. rewrite En, (He ltac:(lia)). cbn [fst]. unfold outs. cbn [w_mgr w_pend w_next emit fst m_outs app]. rewrite Eq, Ex. auto.
    - unfold failTimeout. rewrite Eq. cbn [fst]. unfold outs. cbn [w_mgr w_pend fail emit fst m_outs app root_call]. auto. }
  pose proof (Step _ _ q 2 v1 i eq_refl ltac:(rewrite R0; exact A) ltac:(lia) C E ltac:(rewrite R0; exact B) (fun _ => E1)) as S1. change (0 <? 2) with true in S1. cbv iota zeta in S1. rewrite <- app_assoc in S1. cbn [app] in S1. fold h1 in S1. destruct S1 as (S1a & S1b & S1c).
  pose proof (Step h1 _ q (2 - 1) v2 (S i) eq_refl S1b ltac:(lia) C E S1c (fun _ => E2)) as S2. change (0 <? 2 - 1) with true in S2. cbv iota zeta in S2. fold h2 in S2. destruct S2 as (S2a & S2b & S2c).
  pose proof (Step h2 _ q (2 - 1 - 1) v3 (S (S i)) eq_refl S2b ltac:(lia) C E S2c ltac:(lia)) as S3. change (0 <? 2 - 1 - 1) with false in S3. cbv iota zeta in S3. fold h3 in S3. destruct S3 as (S3a & S3b). auto.
Qed.
(** Command Interests.  As long as the configuration is in force and does not trust everything, and
    fewer keys than the limit are in use, a command Interest is verified only with a timestamp after
    those of all command Interests with the same key that were verified before; the first one only
    within the grace interval. *)
Theorem C86_timestamps : forall P h0 h1 v e call p k ts ks, begins h0 -> existsb loads (h1 ++ [(v, e)]) = false -> good_history P (h0 ++ h1 ++ [(v, e)]) -> ~ trusts_any (fst (era h0)) ->
  In (AVerified call p) (outs (run P (h0 ++ h1 ++ [(v, e)]))) -> stamp_of p k ts ->
  (* the names, as URIs, of the keys of the command Interests verified so far *)
  (forall c' p' k' ts', In (AVerified c' p') (trace_from P (run P h0) h1) -> stamp_of p' k' ts' -> In (n_toUri k' false) ks) ->
  (zlen ks < p_maxKeys P -> forall c' p' k' ts', In (AVerified c' p') (trace_from P (run P h0) h1) -> stamp_of p' k' ts' -> n_toUri k' false = n_toUri k false -> ts' < ts) /\
  ((forall c' p' k' ts', In (AVerified c' p') (trace_from P (run P h0) h1) -> stamp_of p' k' ts' -> n_toUri k' false <> n_toUri k false) -> e_now v - p_grace P < ts < e_now v + p_grace P).
Proof.
  intros P h0 h1 v e call p k ts ks Bg Nl G N I S Wi. destruct (stamps_ok P h0 h1 v e call p k ts ks Bg Nl G N I S) as [A B]; [intros c' p' k' ts' [I' S']; exact (Wi _ _ _ _ I' S')|]. split.
  - intros Bd c' p' k' ts' I' S' U. exact (A Bd c' p' k' ts' (conj I' S') U).
  - intros No. apply B. intros c' p' k' ts' [I' S'] U. exact (No _ _ _ _ I' S' U).
Qed.

(** ** Concrete cases *)
(** The signature value is the key of the signer; the not-after time is the freshness period, and there is no validity period if that is zero. *)
Definition ex_c (l : bytes) : comp := c_generic l.
Definition KEYc : comp := ex_c [75; 69; 89].
Definition ex_meta (na : Z) : metaInfo := MI 2 (-1) (Some na) (c_generic []).
Definition ex_signed (k : name) (bits : bytes) : signature := SigRsa (KL (Some 1) k None) vp_none (Some bits).
Definition ex_keyname (u : Z) : name := [ex_c [u]; KEYc; ex_c [1]].
Definition ex_cert (u na : Z) (signer : Z) : data := Data (ex_keyname u ++ [ex_c [73]; ex_c [1]]) (ex_meta na) (Some [u]) (ex_signed (ex_keyname signer) [signer]).
Definition ex_data (signer : Z) : data := Data [ex_c [120]] (MI 0 (-1) None (c_generic [])) (Some [0]) (ex_signed (ex_keyname signer) [signer]).
Definition ex_P (maxKeys : Z) : params :=
  Params (fun _ => Err ValueError) (fun _ _ => None)
    (fun d => match mi_freshness (d_meta d) with Some 0 => Err ValueError | Some na => Ok na | None => Err ValueError end)
    (fun s => if zlist_eqb s [65] then Ok (ex_cert 65 1000000000 65) else if zlist_eqb s [66] then Ok (ex_cert 66 1000000000 66) else Err ValueError)
    (fun _ => Ok []) (fun s _ key => Ok (zlist_eqb (match sig_bits s with Some x => x | None => [] end) key))
    2 10000 3000000 maxKeys 3600000.
Definition ex_v (now : Z) : env := Env now (fun _ => Err OtherError) (fun _ => Err OtherError) (fun _ => None).
Definition slash : str := [47].
(** trusts the key 65; every key may sign every Data packet *)
Definition ex_cfg : tree := sample_config w_data w_prefix slash [65].
(** The data is signed with the key 66, whose certificate is fetched and is signed by the anchor. *)
Definition ex_chain : list (env * event) := [(ex_v 1, ELoad ex_cfg None); (ex_v 2, EVerify 7 (PData (ex_data 66))); (ex_v 3, EData 0 (ex_cert 66 1000000000 65))].
Lemma ex_cert_good : forall u na s, 0 <= u < 256 -> good_name (d_name (ex_cert u na s)).
Proof. intros u na s B. unfold good_name, ex_cert. cbn [d_name ex_keyname app]. repeat (constructor; [split; [repeat constructor; unfold is_byte; cbn; lia|right; cbn; auto]|]). constructor. Qed.
Lemma ex_good : forall K h, Forall (fun x => (exists t, fst x = ex_v t) /\ match snd x with EData _ d => exists u na s, d = ex_cert u na s /\ 0 <= u < 256 | _ => True end) h -> good_history (ex_P K) h.
Proof.
  intros K h F. split.
  - intros t d E. cbn in E. destruct (zlist_eqb t [65]); [injection E as <-; apply ex_cert_good; lia|]. destruct (zlist_eqb t [66]); [injection E as <-; apply ex_cert_good; lia|discriminate E].
  - apply Forall_impl with (2 := F). intros [v e] [[t E] F2]. cbn [fst snd] in *. subst v. split; [intros f d X; discriminate X|]. cbn [snd]. destruct e; try exact Logic.I. destruct F2 as (u & na & s & -> & B). apply ex_cert_good. exact B.
Qed.
Ltac good_ex := apply ex_good; repeat (constructor; [split; [eexists; reflexivity|cbn [snd]; first [exact Logic.I|do 3 eexists; split; [reflexivity|lia]]]|]); constructor.
Example C85_chain_ex : good_history (ex_P 1000) ex_chain /\ trace (ex_P 1000) ex_chain = [AExpress 7 (ex_keyname 66); AVerified 7 (PData (ex_data 66))] /\ ~ trusts_any (fst (era ex_chain)).
Proof.
  split; [good_ex|]. split; [vm_compute; reflexivity|]. intros (a & I & E). cbn in I. destruct I as [<-|[]]. vm_compute in E. discriminate E.
Qed.
(** the same for C85_anchor_verifies *)
Example C85_anchor_ex : outs (run (ex_P 1000) [(ex_v 1, ELoad ex_cfg None); (ex_v 2, EVerify 7 (PData (ex_data 65)))]) = [AVerified 7 (PData (ex_data 65))] /\
  outs (run (ex_P 1000) [(ex_v 1, ELoad ex_cfg None); (ex_v 3700000, EVerify 7 (PData (ex_data 65)))]) = [AExpress 7 (ex_keyname 65)].
Proof. split; vm_compute; reflexivity. Qed.

(** A call need not be answered: nothing is raised to the application, no Interest waits, and none of the callbacks was called. *)
Definition unanswered (P : params) (h : list (env * event)) (call : Z) : Prop :=
  0 < count (asks call) h /\ count (answers call) (trace P h) = 0 /\ w_pend (run P h) = [] /\
  (forall h1 v p h2, h = h1 ++ (v, EVerify call p) :: h2 -> snd (do P v (EVerify call p) (run P h1)) = None).
Ltac unans := split; [vm_compute; reflexivity|]; split; [vm_compute; reflexivity|]; split; [vm_compute; reflexivity|];
  intros h1 v p h2 E; destruct h1 as [|x0 [|x1 [|x2 [|x3 [|x4 [|x5 h1]]]]]]; cbn [app] in E; inversion E; subst; vm_compute; try reflexivity; destruct h1; discriminate.
(** The certificate that is fetched has no validity period: *)
Theorem C86_no_validity_period_refuted : exists h, good_history (ex_P 1000) h /\ unanswered (ex_P 1000) h 7 /\ In (ALogged 7) (trace (ex_P 1000) h).
Proof.
  exists [(ex_v 1, ELoad ex_cfg None); (ex_v 2, EVerify 7 (PData (ex_data 66))); (ex_v 3, EData 0 (ex_cert 66 0 65))]. split; [good_ex|]. split; [unans|]. vm_compute. auto.
Qed.
(** it is expired: *)
Theorem C86_expired_certificate_refuted : exists h, good_history (ex_P 1000) h /\ unanswered (ex_P 1000) h 7 /\ ~ In (ALogged 7) (trace (ex_P 1000) h).
Proof.
  exists [(ex_v 1, ELoad ex_cfg None); (ex_v 2, EVerify 7 (PData (ex_data 66))); (ex_v 30, EData 0 (ex_cert 66 20 65))]. split; [good_ex|]. split; [unans|]. vm_compute. intros [X|[]]. discriminate X.
Qed.
(** the chain is deeper than the maximum: *)
Theorem C86_depth_refuted : exists h, good_history (ex_P 1000) h /\ unanswered (ex_P 1000) h 7.
Proof.
  exists [(ex_v 1, ELoad ex_cfg None); (ex_v 2, EVerify 7 (PData (ex_data 66))); (ex_v 3, EData 0 (ex_cert 66 1000000000 67)); (ex_v 4, EData 1 (ex_cert 67 1000000000 68)); (ex_v 5, EData 2 (ex_cert 68 1000000000 65))]. split; [good_ex|]. unans.
Qed.
(** Command Interests *)
Definition ex_cfg2 : tree :=
  Tree None [(w_validator, Tree None [
    (w_rule, Tree None [(w_for, leaf w_interest); (w_checker, Tree None [(w_type, leaf w_customized); (w_key_locator, Tree None [(w_name, leaf slash); (w_relation, leaf w_prefix)])])]);
    (w_trust_anchor, Tree None [(w_type, leaf w_base64); (w_base64_string, leaf [65])]); (w_trust_anchor, Tree None [(w_type, leaf w_base64); (w_base64_string, leaf [66])])])].
Definition ex_command (u ts : Z) : name := match signName [ex_c [120]; c_generic (TlvSpec.nonneg ts); c_generic [0; 1; 2; 3; 4; 5; 6; 7]] (ex_signed (ex_keyname u) [u]) with Ok n => n | Err _ => [] end.
Definition ex_cmds : list (env * event) := [(ex_v 1000, EVerify 1 (PInterest (ex_command 65 999))); (ex_v 1001, EVerify 2 (PInterest (ex_command 66 990))); (ex_v 1002, EVerify 3 (PInterest (ex_command 66 990))); (ex_v 1003, EVerify 4 (PInterest (ex_command 66 991)))].
Notation "'loaded'" := [(ex_v 1, ELoad ex_cfg2 None)].
Lemma ex_stamp : forall u ts, (u = 65 \/ u = 66) -> (ts = 990 \/ ts = 991 \/ ts = 999) -> stamp_of (PInterest (ex_command u ts)) (ex_keyname u) ts.
Proof.
  intros u ts [->| ->] [->|[->| ->]]; match goal with |- stamp_of (PInterest ?n) _ _ => destruct (CmdProps.parse_iff n) as (r & E & R) end; apply R; vm_compute in E; injection E as <-; reflexivity.
Qed.
Example C86_timestamps_ex : begins loaded /\ existsb loads ex_cmds = false /\ good_history (ex_P 1000) (loaded ++ ex_cmds) /\ ~ trusts_any (fst (era loaded)) /\
  trace_from (ex_P 1000) (run (ex_P 1000) loaded) ex_cmds = [AVerified 1 (PInterest (ex_command 65 999)); AVerified 2 (PInterest (ex_command 66 990)); AFailed 3 (PInterest (ex_command 66 990)); AVerified 4 (PInterest (ex_command 66 991))].
Proof.
  split; [right; exists [], (ex_v 1), ex_cfg2, None; reflexivity|]. split; [reflexivity|]. split; [cbn [app ex_cmds]; good_ex|]. split; [|vm_compute; reflexivity].
  intros (a & I & E). cbn in I. destruct I as [<-|[<-|[]]]; vm_compute in E; discriminate E.
Qed.
(** When there are too many keys, the timestamp that was just stored may be the one that is removed:
    the same command is verified twice. *)
Theorem C86_replay_refuted : exists K h0 h1 v call p k ts, begins h0 /\ existsb loads (h1 ++ [(v, EVerify call p)]) = false /\ good_history (ex_P K) (h0 ++ h1 ++ [(v, EVerify call p)]) /\ ~ trusts_any (fst (era h0)) /\ stamp_of p k ts /\
  In (AVerified (call - 1) p) (trace_from (ex_P K) (run (ex_P K) h0) h1) /\ outs (run (ex_P K) (h0 ++ h1 ++ [(v, EVerify call p)])) = [AVerified call p].
Proof.
  exists 1, loaded, (firstn 2 ex_cmds), (ex_v 1002), 3, (PInterest (ex_command 66 990)), (ex_keyname 66), 990. destruct C86_timestamps_ex as (A & B & C & D & _). split; [exact A|]. split; [reflexivity|]. split; [cbn [app ex_cmds firstn]; good_ex|]. split; [exact D|]. split; [apply ex_stamp; auto|]. split; [vm_compute; auto|]. vm_compute. reflexivity.
Qed.
(** When an old timestamp is removed, verifyInterest raises although it has called onVerified. *)
Theorem C86_raise_after_verified_refuted : exists K h v call p, good_history (ex_P K) (h ++ [(v, EVerify call p)]) /\ outs (run (ex_P K) (h ++ [(v, EVerify call p)])) = [AVerified call p] /\ snd (do (ex_P K) v (EVerify call p) (run (ex_P K) h)) = Some RuntimeError.
Proof.
  exists 1, (loaded ++ firstn 1 ex_cmds), (ex_v 3500000), 9, (PInterest (ex_command 66 3500001)). split; [cbn [app ex_cmds firstn]; good_ex|]. split; vm_compute; reflexivity.
Qed.
(** A directory of trust anchors without a refresh period: load raises (only KeyError is caught). *)
Definition ex_dir : tree := Tree None [(w_validator, Tree None [(w_trust_anchor, Tree None [(w_type, leaf w_dir); (w_dir, leaf slash)])])].
Theorem C85_refresh_needed_refuted : forall P v w, snd (do P v (ELoad ex_dir None) w) = Some IndexError.
Proof. intros P v w. reflexivity. Qed.
(** A signature with HMAC: verifyData raises. *)
Definition ex_hmac : data := Data [ex_c [120]] (MI 0 (-1) None (c_generic [])) (Some [0]) (SigHmac (KL (Some 1) (ex_keyname 65) None) (Some [65])).
Theorem C86_hmac_refuted : snd (do (ex_P 1000) (ex_v 2) (EVerify 7 (PData ex_hmac)) (run (ex_P 1000) [(ex_v 1, ELoad ex_cfg None)])) = Some SecurityException.
Proof. vm_compute. reflexivity. Qed.

Print Assumptions C85_only_authentic.
Print Assumptions C85_nothing_trusted.
Print Assumptions C85_anchor_verifies.
Print Assumptions C86_one_answer.
Print Assumptions C86_interests.
Print Assumptions C86_first_step.
Print Assumptions C86_timeouts.
Print Assumptions C86_timestamps.
Print Assumptions C86_no_validity_period_refuted.
Print Assumptions C86_expired_certificate_refuted.
Print Assumptions C86_depth_refuted.
Print Assumptions C86_replay_refuted.
Print Assumptions C86_raise_after_verified_refuted.
Print Assumptions C85_refresh_needed_refuted.
Print Assumptions C86_hmac_refuted.
