(** * C85: expressions, hierarchical checkers and "any" *)
From Verif Require Import Base BaseLemmas NameModel NameSpec NameProofs UriModel BlobModel DictModel WireModel CtlModel MatchModel CmdModel HierModel HierSpec RegexModel RegexSpec RegexProofs4
  InfoModel InfoSpec ConfModel ConfSpec ConfProofs CertModel CertSpec CpmModel CpmSpec CpmProofs CpmProofs2 RegexSpec.
From Verif Require InfoProps RegexProps ConfProps CpmProps RegexProofs2 RegexProofs3.
Local Open Scope res_scope.

(** ** Expressions *)
(** With Python's re as usual: when the manager accepts a name for the text of an expression, the name
    is in the language of the expression, and an expansion consists of what its groups have matched. *)
Lemma runs_fun : forall P e n x y, runs P e n x -> runs P e n y -> x = y.
Proof. intros P e n x y (x0 & A & B) (y0 & C & D). rewrite A in C. injection C as <-. rewrite B in D. injection D as <-. reflexivity. Qed.
Lemma runs_step : forall P e s n x, re_plain (p_groups P) (p_search P) -> regex_of (p_groups P) e s -> runs P e n x ->
  x_matches (p_search P) s n /\ exists ref, captured (p_groups P) (p_search P) s n ref /\ forall t out, expand x t = Ok out -> expands ref t out.
Proof.
  intros P e s n x ((A1 & A2) & L & E0) (W & N & ->) (x0 & H & M). destruct (top_ok (p_groups P) A1 (x_start s) (x_items s) (x_stop s) W N) as (x' & H' & Sh & _). rewrite H in H'. injection H' as <-.
  destruct (x_step (p_groups P) (p_search P) (conj A1 A2) x0 s n (conj W Sh)) as (y & b & Eb & R & Mb & _). rewrite M in Eb. injection Eb as <- <-. destruct (Mb eq_refl) as (X & ref & C & V & _). split; [exact X|]. exists ref. split; [exact C|].
  intros t out Ex. destruct (expand_inv _ _ _ _ Ex) as (ps & F & -> & Pv). exists ps. split; [exact F|]. split; [reflexivity|]. exact (values_expansion x ref ps out V F Pv).
Qed.
Theorem C85_expressions : forall P e s n, re_plain (p_groups P) (p_search P) -> regex_of (p_groups P) e s ->
  (accepts P e n -> x_matches (p_search P) s n) /\
  (forall t out, yields P e n t out -> exists ref, captured (p_groups P) (p_search P) s n ref /\ expands ref t out) /\
  (x_strict (p_search P) s -> zlen n <= 32767 -> x_matches (p_search P) s n -> accepts P e n).
Proof.
  intros P e s n Pl Re. split; [intros [x R]; exact (proj1 (runs_step P e s n x Pl Re R))|]. split.
  - intros t out (x & R & Ex). destruct (runs_step P e s n x Pl Re R) as (_ & ref & C & V). eauto.
  - intros St Ln M. destruct Pl as ((A1 & A2) & L & E0), Re as (W & N & ->). destruct (top_ok (p_groups P) A1 (x_start s) (x_items s) (x_stop s) W N) as (x0 & H & Sh & _).
    destruct (x_step (p_groups P) (p_search P) (conj A1 A2) x0 s n (conj W Sh)) as (y & b & Eb & _ & _ & Nb). destruct b; [exists y, x0; auto|]. elim (Nb St Ln eq_refl M).
Qed.

(** ** Hierarchical checkers *)
Definition ksk_text : str := [107; 115; 107; 45; 46; 43].
Definition idcert_text : str := [73; 68; 45; 67; 69; 82; 84].
Definition p_id : regex := Regex true [Group [Set_ true [KEYv] QStar] QOne; One KEYv QOne; Group [One [] QStar] QOne; One ksk_text QOne; One idcert_text QOne] false.
Lemma two_ref : forall ref out, expands ref [92; 50] out -> out = ref 2.
Proof.
  intros ref out (ps & F & E & ->). destruct ps as [|[i|t] ps]; [discriminate E| |discriminate E]. inversion F as [|? ? Np F']; subst. destruct Np as [Ni Fi]. cbn [flat_map p_text] in E. injection E as E. destruct i as [|x i]; [congruence|]. cbn [app] in E. injection E as <- E. symmetry in E. apply app_eq_nil in E. destruct E as [-> E]. destruct ps as [|[j|t] ps]; [|discriminate E|discriminate E]. cbn. apply app_nil_r.
Qed.
Section H.
Variable P : params.
Hypothesis Pl : re_plain (p_groups P) (p_search P).
Lemma group_caps : forall j l w g, caps_item (p_groups P) (p_search P) j (Group l QOne) w g -> In (j, w) g.
Proof. intros j l w g (ws & -> & L & F & R). destruct (ConfProps.one_of QOne ws eq_refl L) as [v ->]. cbn [rev app concat] in *. rewrite app_nil_r. destruct R as (s' & -> & _). left. reflexivity. Qed.
Lemma key_zero : groups (p_groups P) KEYv = 0%nat.
Proof. destruct Pl as (_ & L & _). destruct (L KEYv) as [X _]; [discriminate|repeat (constructor; [unfold literal; lia|]); constructor|]. change (quoted KEYv) with KEYv in X. unfold groups. rewrite X. reflexivity. Qed.
Lemma id_captured : forall k ref, captured (p_groups P) (p_search P) p_id k ref -> exists c d e w, k = ref 1 ++ c :: ref 2 ++ d :: e :: w /\ found (p_search P) KEYv c.
Proof.
  intros k ref (u & v & w & g & -> & Hu & _ & Cg & _ & R). rewrite (Hu eq_refl). cbn [app]. unfold p_id in Cg. cbn [x_items] in Cg.
  destruct Cg as (a & b & s1 & s2 & -> & -> & C1 & Cg). destruct Cg as (a2 & b2 & s3 & s4 & -> & -> & C2 & Cg). destruct Cg as (a3 & b3 & s5 & s6 & -> & -> & C3 & Cg). destruct Cg as (a4 & b4 & s7 & s8 & -> & -> & C4 & Cg). destruct Cg as (a5 & b5 & s9 & s10 & -> & -> & C5 & -> & ->).
  apply (ConfProps.one_caps (p_groups P) (p_search P)) in C2, C4, C5. destruct C2 as (c & -> & Fc), C4 as (d & -> & _), C5 as (e & -> & _).
  apply group_caps in C1. apply group_caps in C3. cbn [nrefs_item map list_sum fold_right] in C3. rewrite key_zero in C3. cbn [Nat.add] in C3.
  exists c, d, e, w. split; [|exact Fc]. assert (R1 : ref 1 = a) by (apply (R 0%nat a); apply in_or_app; left; exact C1). assert (R2 : ref 2 = a3) by (apply (R 1%nat a3); apply in_or_app; right; apply in_or_app; right; apply in_or_app; left; exact C3). rewrite R1, R2.
  rewrite <- !app_assoc. cbn [app]. rewrite <- ?app_assoc. reflexivity.
Qed.
End H.
Lemma bal : forall l r t, (forallb (fun c => negb (c =? l) && negb (c =? r)) t = true) -> balanced l r t.
Proof.
  intros l r t H. assert (Z0 : forall p, (exists s, t = p ++ s) -> RegexSpec.count l p = 0%nat /\ RegexSpec.count r p = 0%nat).
  { intros p [s ->]. rewrite forallb_app in H. apply andb_prop in H. destruct H as [H _]. unfold RegexSpec.count. rewrite forallb_forall in H. split; apply count_occ_not_In; intros I; apply H in I; apply andb_prop in I; destruct I as [I1 I2]; rewrite Z.eqb_refl in *; discriminate. }
  split; [destruct (Z0 t) as [A B]; [exists []; symmetry; apply app_nil_r|]; congruence|]. intros p s E. destruct (Z0 p) as [A B]; [eauto|]. lia.
Qed.
(** When a hierarchical checker approves the key locator, that is .../KEY/... with more after it, and its
    components without KEY and without some at the end begin the name of the packet. *)
Theorem C85_hierarchical : forall P envs n k ck g, re_plain (p_groups P) (p_search P) -> p_groups P ksk_text = Ok g ->
  value w_type ck = Some w_hierarchical -> approves P envs n k ck ->
  exists x c y rest, k = x ++ c :: y ++ rest /\ rest <> [] /\ substring [75; 69; 89] (c_toEscapedString c) /\ under_values (x ++ y) n.
Proof.
  intros P envs n k ck g Pl Gk Ht Ap. pose proof Pl as ((A1 & A2) & L & E0).
  assert (Gkey : p_groups P KEYv = Ok 0%nat). { destruct (L KEYv) as [X _]; [discriminate|repeat (constructor; [unfold literal; lia|]); constructor|]. exact X. }
  assert (Gid : p_groups P idcert_text = Ok 0%nat). { destruct (L idcert_text) as [X _]; [discriminate|repeat (constructor; [unfold literal; lia|]); constructor|]. exact X. }
  assert (T : forall t g', forallb (fun c => negb (c =? 60) && negb (c =? 62)) t = true -> p_groups P t = Ok g' -> t_ok (p_groups P) t) by (intros t g' B Eg; split; [apply bal; exact B|eauto]).
  assert (R1 : regex_of (p_groups P) identityRegex p_id).
  { split; [|split; [left; reflexivity|reflexivity]]. unfold p_id. cbn [x_items]. repeat constructor; try apply bal; try reflexivity; try (eexists; eassumption). }
  assert (R2 : regex_of (p_groups P) identityRegex2 ConfProps.p_key).
  { split; [|split; [left; reflexivity|reflexivity]]. unfold ConfProps.p_key. cbn [x_items]. repeat constructor; try apply bal; try reflexivity; try (eexists; eassumption). }
  destruct Ap as [? ? ? ? ? ? X|x y X (x1 & Ra & Ea) (x2 & Rb & Eb) U|x X (x1 & Ra & Ea) U|? ? X|? ? X|? ? ? ? ? ? ? ? X]; rewrite Ht in X; try discriminate X.
  - pose proof (runs_fun P _ _ _ _ Ra Rb). subst x2. destruct (runs_step P _ _ _ _ Pl R1 Ra) as (_ & ref & C & V). apply V in Ea, Eb. apply ConfProps.one_ref in Ea. apply two_ref in Eb. subst x y.
    destruct (id_captured P Pl k ref C) as (c & d & e & w & E & Fc). exists (ref 1), c, (ref 2), (d :: e :: w). split; [exact E|]. split; [discriminate|]. split; [|exact U]. apply (ConfProps.found_key (p_groups P) (p_search P) Pl). exact Fc.
  - destruct (runs_step P _ _ _ _ Pl R2 Ra) as (_ & ref & C & V). apply V in Ea. apply ConfProps.one_ref in Ea. subst x. destruct (ConfProps.key_captured (p_groups P) (p_search P) k ref C) as (u & c & d & E & Fc & Eu).
    exists u, c, [], [d]. split; [exact E|]. split; [discriminate|]. split; [apply (ConfProps.found_key (p_groups P) (p_search P) Pl); exact Fc|]. rewrite app_nil_r, <- Eu. exact U.
Qed.

(** ** "any" *)
(** does not change whether verification is required *)
Definition keeps {A : Type} (x : pm A) : Prop := forall m, m_requires (fst (x m)) = m_requires m.
Section Keeps.
Variable P : params.
Variable v : env.
Lemma k_bind : forall (A B : Type) (x : pm A) (k : A -> pm B), keeps x -> (forall a, keeps (k a)) -> keeps (pbind x k).
Proof. intros A B x k Hx Hk m. unfold pbind. pose proof (Hx m) as A1. destruct (x m) as [m1 [a|e]]; cbn [fst] in *; [|auto]. rewrite (Hk a m1). exact A1. Qed.
Lemma k_refl : forall (A : Type) (x : pm A), (forall m, m_requires (fst (x m)) = m_requires m) -> keeps x. Proof. intros A x H. exact H. Qed.
Ltac kp := repeat first [apply k_bind; [|intros ?]|(apply k_refl; intros ?; reflexivity)].
Lemma k_cfind : forall n, keeps (cfind v n).
Proof. intros n m. unfold cfind. destruct (cc_find_name (m_cache m) (e_now v) n) as [[c r]|]; reflexivity. Qed.
Lemma k_rfind : forall n, keeps (rfind v n).
Proof. intros n m. unfold rfind. destruct (cc_find_name (m_rcache m) (e_now v) n) as [[c r]|]; reflexivity. Qed.
Lemma k_cinsert : forall d, keeps (cinsert P v d).
Proof. intros d m. unfold cinsert. destruct (cc_insert d_name (p_notAfter P) cert_checkFormat (m_cache m) (e_now v) d). reflexivity. Qed.
Lemma k_rinsert : forall d, keeps (rinsert P v d).
Proof. intros d m. unfold rinsert. destruct (cc_insert d_name (p_notAfter P) cert_checkFormat (m_rcache m) (e_now v) d). reflexivity. Qed.
Lemma k_lookup : forall id b, keeps (lookupCertificate P v id b).
Proof. intros [id|] b; cbn [lookupCertificate]; [|kp]. apply k_bind; [kp|]. intros fixed. destruct (dget zlist_eqb fixed id); [apply k_bind; [kp|intros n; apply k_cfind]|]. apply k_bind; [kp|]. intros d. apply k_bind; [kp|]. intros q. apply k_bind; [kp|]. intros _. apply k_bind; [apply k_cinsert|]. intros _. kp. Qed.
Lemma k_addFiles : forall fs names, keeps (addFiles P v fs names).
Proof. induction fs as [|f fs IH]; intros names; cbn [addFiles]; [kp|]. destruct (load_file v f); [|apply IH]. apply k_bind; [kp|]. intros k. apply k_bind; [apply k_rinsert|]. intros _. apply IH. Qed.
Lemma k_addDirectory : forall d p, keeps (addDirectory P v d p).
Proof. intros [d|] p; cbn [addDirectory]; [|kp]. apply k_bind; [kp|]. intros f. apply k_bind; [apply k_addFiles|]. intros n. kp. Qed.
Lemma k_dropCerts : forall l, keeps (dropCerts v l).
Proof. induction l as [|c l IH]; cbn [dropCerts]; [kp|]. destruct (n_set c) as [n|e]; [|destruct e; first [exact IH|kp]]. apply k_bind; [apply k_rfind|]. intros [d|]; [|exact IH]. apply k_bind; [kp|]. intros rc. apply k_bind; [kp|]. intros _. exact IH. Qed.
Lemma k_refresh : keeps (refreshAnchors P v).
Proof. unfold refreshAnchors. apply k_bind; [kp|]. intros l. induction l as [|[dir info] l IH]; cbn [refreshDirs]; [kp|]. apply k_bind; [|intros _; exact IH]. destruct (di_next info <=? e_now v); [|kp]. apply k_bind; [apply k_dropCerts|intros _; apply k_addDirectory]. Qed.
Lemma k_findCertificate : forall k, keeps (findCertificate v k).
Proof. intros k. unfold findCertificate. apply k_bind; [apply k_rfind|]. intros [d|]; [kp|apply k_cfind]. Qed.
Lemma k_checkSignatureMatch : forall k n r, keeps (checkSignatureMatch P v k n r).
Proof.
  intros k n r. unfold checkSignatureMatch. apply k_bind; [kp|]. intros ck. apply k_bind; [kp|]. intros ty. destruct (is_word ty w_fixed_signer); [|destruct (is_word ty w_hierarchical); [kp|destruct (is_word ty w_customized); [kp|destruct ty; kp]]].
  unfold checkFixedSigner. apply k_bind; [kp|]. intros s. apply k_bind; [kp|]. intros t. apply k_bind; [|intros c; kp]. destruct (is_word t w_file); [apply k_bind; [kp|intros f; apply k_lookup]|]. destruct (is_word t w_base64); [apply k_bind; [kp|intros f; apply k_lookup]|]. destruct t; kp.
Qed.
Lemma k_gci : forall step ty n s, keeps (getCertificateInterest P v step ty n s).
Proof.
  intros step ty n s. unfold getCertificateInterest. destruct (p_maxDepth P <? step); [kp|]. apply k_bind.
  - intros m. unfold findMatchingRule, pbind, pget, plift. destruct (findRule P (t_getitem (m_config m) w_validator_rule) n ty); reflexivity.
  - intros [r|]; [|kp]. destruct (kl_ofSignature s) as [kl|]; [|kp]. cbv zeta. destruct (zlen (kl_name kl) =? 0); [kp|]. apply k_bind; [apply k_checkSignatureMatch|]. intros [|]; cbn [negb]; [|kp]. apply k_bind; [apply k_refresh|]. intros _. apply k_bind; [apply k_findCertificate|]. intros [c|]; kp.
Qed.
Lemma k_verify : forall s b, keeps (verify P v s b).
Proof. intros s b. unfold verify. destruct (kl_ofSignature s) as [kl|]; [|kp]. destruct (match kl_type kl with Some t => t =? 1 | None => false end); [|kp]. apply k_bind; [apply k_findCertificate|]. intros [d|]; [|kp]. destruct (d_content d) as [[|x key]|]; kp. Qed.
Lemma k_fresh : forall k ts, keeps (timestampIsFresh P v k ts).
Proof. intros k ts. unfold timestampIsFresh. apply k_bind; [kp|]. intros d. destruct (dget zlist_eqb d (n_toUri k false)); kp. Qed.
Lemma k_update : forall k ts, keeps (updateTimestampForKey P v k ts).
Proof.
  intros k ts. unfold updateTimestampForKey. apply k_bind; [kp|]. intros d. cbv zeta. apply k_bind; [kp|]. intros _. destruct (p_maxKeys P <=? _); [|kp]. destruct (scanKeys P v _ _ _ _) as [d1 r]. apply k_bind; [kp|]. intros _. apply k_bind; [kp|]. intros o. destruct (p_maxKeys P <? zlen d1); [|kp]. destruct o; kp.
Qed.
Lemma k_logged : forall c x, keeps x -> keeps (logged c x).
Proof. intros c x H m. unfold logged. specialize (H m). destruct (x m) as [m' [u|e]]; exact H. Qed.
Lemma k_check : forall k p step, keeps (check P v k p step).
Proof.
  induction k as [call|p0 step0 k0 IH]; intros p step; cbn [check].
  all: apply k_bind; [kp|]; intros obj; apply k_bind; [kp|]; intros [s|]; [|kp]; apply k_bind; [apply k_gci|]; intros [n|]; [|kp]; destruct (0 <? zlen n); [kp|].
  all: apply k_bind; [destruct p as [d|i]; [kp|]; apply k_bind; [kp|]; intros kl; apply k_bind; [kp|]; intros c; apply k_bind; [apply k_fresh|]; intros [|]; kp|]; intros [st|]; [|kp].
  all: apply k_bind; [kp|]; intros b; apply k_bind; [apply k_verify|]; intros [|]; [|kp]; apply k_bind; [|intros _; apply k_bind; [destruct st as [[kn ts]|]; [apply k_update|kp]|intros _; kp]].
  - kp.
  - apply k_logged. destruct p as [d|i]; [|kp]. destruct (cert_checkFormat d); [|kp]. apply k_bind; [apply k_cinsert|]. intros _. apply k_bind; [apply IH|]. intros _. kp.
Qed.
Lemma k_callVerified : forall k p, keeps (callVerified P v k p).
Proof. intros [call|p0 step0 k0] p; cbn [callVerified]; [kp|]. apply k_logged. destruct p as [d|i]; [|kp]. destruct (cert_checkFormat d); [|kp]. apply k_bind; [apply k_cinsert|]. intros _. apply k_bind; [apply k_check|]. intros _. kp. Qed.
Lemma k_verifyPacket : forall k p step, keeps (verifyPacket P v k p step).
Proof. intros k p step. unfold verifyPacket. apply k_bind; [kp|]. intros [|]; [apply k_check|]. cbn [negb]. apply k_bind; [apply k_callVerified|]. intros _. kp. Qed.
Lemma k_start : forall k p step w, m_requires (w_mgr (fst (start P v k p step w))) = m_requires (w_mgr w).
Proof.
  intros k p step w. unfold start. pose proof (k_verifyPacket k p step (w_mgr w)) as H. destruct (verifyPacket P v k p step (w_mgr w)) as [m [[q|]|e]]; cbn [fst] in H; [|exact H|exact H]. unfold express. destruct (e_express v (q_name q)); exact H.
Qed.
Lemma k_do : forall e w, loads (v, e) = false -> m_requires (w_mgr (fst (do P v e w))) = m_requires (w_mgr w).
Proof.
  intros [root err|call p|i d|i] w L; [discriminate L| | |]; cbn [do]; cbv zeta.
  - exact (k_start _ _ _ (clear_outs w)).
  - destruct (take i (w_pend (clear_outs w))) as [x|]; [|reflexivity]. rewrite k_start. reflexivity.
  - destruct (take i (w_pend (clear_outs w))) as [x|]; [|reflexivity]. destruct (0 <? pd_retry x).
    + unfold express. destruct (e_express v (q_name (pd_req x))); reflexivity.
    + cbn [fst w_mgr]. unfold failTimeout. destruct (q_cont (pd_req x)); reflexivity.
Qed.
Lemma k_loadAnchors : forall l last m m', loadAnchors P v l last m = (m', Ok tt) -> Exists (fun a => value w_type a = Some w_any) l -> m_requires m' = false.
Proof.
  induction l as [|a l IH]; intros last m m' E X; [inversion X|]. cbn [loadAnchors] in E. unfold pbind at 1, plift at 1 in E. destruct (firstValue a w_type) as [ty|] eqn:Ft; [|discriminate E]. apply firstValue_ok in Ft; [|reflexivity].
  destruct (is_word ty w_dir) eqn:Wd.
  - assert (X' : Exists (fun a => value w_type a = Some w_any) l). { inversion X as [? ? H|? ? H]; subst; [|exact H]. rewrite H in Wd. discriminate Wd. }
    unfold pbind, plift in E. destruct (firstValue a w_dir) as [d|]; [|discriminate E]. destruct (firstValue a w_refresh) as [r|]; [|discriminate E]. destruct (refreshPeriod r) as [pr|]; [|discriminate E]. destruct (addDirectory P v d pr m) as [m1 [u|]]; [|discriminate E]. exact (IH _ _ _ E X').
  - destruct (is_word ty w_any) eqn:Wa; [injection E as <-; reflexivity|].
    assert (X' : Exists (fun a => value w_type a = Some w_any) l). { inversion X as [? ? H|? ? H]; subst; [|exact H]. rewrite H in Wa. discriminate Wa. }
    unfold pbind at 1 in E. match type of E with (let (_, _) := ?z in _) = _ => destruct z as [m1 [[[id b]|]|]] end; try discriminate E. unfold pbind at 1 in E. destruct (lookupCertificate P v id b m1) as [m2 [u|]]; [|discriminate E]. exact (IH _ _ _ E X').
Qed.
End Keeps.
(** When a configuration with a trust anchor of the type "any" has been loaded without an exception, every
    packet is verified at once, until the next load. *)
Theorem C85_any_verifies : forall P h0 v0 cfg h1 v call p, trusts_any cfg -> snd (do P v0 (ELoad cfg None) (run P h0)) = None -> existsb loads h1 = false ->
  outs (run P (h0 ++ (v0, ELoad cfg None) :: h1 ++ [(v, EVerify call p)])) = [AVerified call p] /\ snd (do P v (EVerify call p) (run P (h0 ++ (v0, ELoad cfg None) :: h1))) = None.
Proof.
  intros P h0 v0 cfg h1 v call p (a & Ia & Ea) L N.
  assert (R0 : m_requires (w_mgr (run P (h0 ++ [(v0, ELoad cfg None)]))) = false).
  { rewrite run_snoc. cbn [do] in *. unfold load in *. rewrite (pbind_ok _ _ _ _ _ (fst (reset P (w_mgr (clear_outs (run P h0))))) tt) in * by reflexivity. rewrite (pbind_ok _ _ _ _ _ (fst (put_config cfg (fst (reset P (w_mgr (clear_outs (run P h0))))))) tt) in * by reflexivity.
    match type of L with snd (let (_, _) := ?z in _) = _ => destruct z as [m [[]|e]] eqn:E end; [|discriminate L]. cbn [fst w_mgr].
    apply k_loadAnchors with (1 := E). apply Exists_exists. exists a. split; [|exact Ea]. rewrite InfoProps.C62_lookup. exact Ia. }
  assert (R1 : m_requires (w_mgr (run P (h0 ++ (v0, ELoad cfg None) :: h1))) = false).
  { change ((v0, ELoad cfg None) :: h1) with ([(v0, ELoad cfg None)] ++ h1). rewrite app_assoc. clear - R0 N. revert N. set (h := h0 ++ _) in *. clearbody h. induction h1 as [|[v e] h1 IH] using rev_ind; intros N; [rewrite app_nil_r; exact R0|].
    rewrite existsb_app in N. apply orb_false_elim in N. destruct N as [N1 N2]. cbn [existsb] in N2. apply orb_false_elim in N2. destruct N2 as [N2 _]. rewrite app_assoc, run_snoc, k_do by exact N2. apply IH. exact N1. }
  set (h := h0 ++ (v0, ELoad cfg None) :: h1) in *. replace (h0 ++ (v0, ELoad cfg None) :: h1 ++ [(v, EVerify call p)]) with (h ++ [(v, EVerify call p)]) by (unfold h; rewrite <- app_assoc; reflexivity). rewrite run_snoc. cbn [do]. unfold start, verifyPacket.
  rewrite (pbind_ok _ _ _ _ _ (w_mgr (clear_outs (run P h))) false) by (unfold pget; rewrite <- R1; reflexivity). cbn [negb callVerified]. split; reflexivity.
Qed.
Definition any_cfg : tree := Tree None [(w_validator, Tree None [(w_trust_anchor, Tree None [(w_type, Tree (Some w_any) [])])])].
Example C85_any_ex : trusts_any any_cfg /\ snd (do (CpmProps.ex_P 5) (CpmProps.ex_v 1) (ELoad any_cfg None) (run (CpmProps.ex_P 5) [])) = None.
Proof. split; [eexists; split; [left; reflexivity|reflexivity]|reflexivity]. Qed.

(** the hypotheses of C85_hierarchical: /a/KEY/1 may sign /a/b *)
Definition lit_P : params := Params RegexProps.lit_groups RegexProps.lit_search (fun _ => Ok 0) (fun _ => Err OtherError) (fun _ => Ok []) (fun _ _ _ => Ok true) 5 1 1 10 100.
Definition hier_ck : tree := Tree None [(w_type, Tree (Some w_hierarchical) [])].
Example C85_hierarchical_ex : re_plain (p_groups lit_P) (p_search lit_P) /\ p_groups lit_P ksk_text = Ok 0%nat /\ value w_type hier_ck = Some w_hierarchical /\
  approves lit_P [] [c_generic [97]; c_generic [98]] [c_generic [97]; c_generic [75; 69; 89]; c_generic [49]] hier_ck.
Proof.
  split; [exact ConfProps.lit_plain|]. split; [reflexivity|]. split; [reflexivity|].
  apply hier_ok; [reflexivity|]. vm_compute. reflexivity.
Qed.

(** ** Directories of anchors *)
(** A directory is read when the configuration is loaded, with the refresh period of its text ("2m", "30s", "1h"), and the
    manager looks there again only when the period is over; then the next period starts. *)
Lemma addFiles_dirs : forall P v files names m m' r, addFiles P v files names m = (m', r) -> m_dirs m' = m_dirs m.
Proof.
  intros P v files. induction files as [|f fs IH]; intros names m m' r E; cbn [addFiles] in E; [injection E as <- <-; reflexivity|]. destruct (load_file v f) as [d|x]; [|exact (IH _ _ _ _ E)].
  unfold pbind, plift in E. destruct (cert_extractKeyName (d_name d)) as [k|x]; [|injection E as <- <-; reflexivity]. unfold rinsert in E. destruct (cc_insert _ _ _ _ _ _) as [c r0]. unfold pbind, put_rcache, plift in E. destruct r0 as [[]|x]; [rewrite (IH _ _ _ _ E); reflexivity|injection E as <- <-; reflexivity].
Qed.
Lemma addDirectory_dirs : forall P v d p m m', addDirectory P v (Some d) p m = (m', Ok tt) -> (exists files, e_list v d = Ok files) /\ exists names, m_dirs m' = dset zlist_eqb (m_dirs m) d (DirInfo names (e_now v + p) p).
Proof.
  intros P v d p m m' E. cbn [addDirectory] in E. unfold pbind, plift, pget, put_dirs in E. destruct (e_list v d) as [files|x]; [|discriminate E]. split; [eauto|]. destruct (addFiles P v files [] m) as [m1 [names|x]] eqn:A; [|discriminate E]. injection E as <-. exists names. cbn [m_dirs]. rewrite (addFiles_dirs _ _ _ _ _ _ _ A). reflexivity.
Qed.
Lemma dropCerts_dirs : forall v l m m' r, dropCerts v l m = (m', r) -> m_dirs m' = m_dirs m.
Proof.
  intros v l. induction l as [|c l IH]; intros m m' r E; cbn [dropCerts] in E; [injection E as <- <-; reflexivity|]. destruct (n_set c) as [n|x]; [|destruct x; try (injection E as <- <-; reflexivity); exact (IH _ _ _ E)].
  unfold pbind in E. unfold rfind in E at 1. destruct (cc_find_name (m_rcache m) (e_now v) n) as [[c' [d|]]|x]; [| |injection E as <- <-; reflexivity]; cbn [pbind put_rcache pret pget] in E; rewrite (IH _ _ _ E); reflexivity.
Qed.
Lemma period_ok : forall d c factor rest, digits_ok d -> (c, factor) = (115, 1) \/ (c, factor) = (109, 60) \/ (c, factor) = (104, 3600) -> refreshPeriod (Some (d ++ c :: rest)) = Ok (decimal d * factor * 1000).
Proof.
  intros d c factor rest D U. unfold refreshPeriod. assert (S : span_digits (d ++ c :: rest) = (d, c :: rest)) by (apply RegexProps.span_ok; [apply D|]; cbn; unfold is_digit; destruct U as [U|[U|U]]; injection U as -> _; reflexivity).
  unfold refresh_parse. rewrite S. destruct d as [|x d]; [destruct D; congruence|]. destruct U as [U|[U|U]]; injection U as -> ->; cbn [Z.eqb Pos.eqb orb negb]; cbv zeta; rewrite RegexProofs2.int_decimal; f_equal; lia.
Qed.
Theorem C85_refresh : forall P v0 w cfg a dir d c factor rest, anchors_of cfg = [a] -> value w_type a = Some w_dir -> value w_dir a = Some dir ->
  value w_refresh a = Some (d ++ c :: rest) -> digits_ok d -> (c, factor) = (115, 1) \/ (c, factor) = (109, 60) \/ (c, factor) = (104, 3600) ->
  snd (do P v0 (ELoad cfg None) w) = None -> let m := w_mgr (fst (do P v0 (ELoad cfg None) w)) in let period := decimal d * factor * 1000 in
  (exists files, e_list v0 dir = Ok files) /\ (exists names, m_dirs m = [(dir, DirInfo names (e_now v0 + period) period)]) /\
  forall m1 names t, m_dirs m1 = [(dir, DirInfo names t period)] -> forall v,
    (e_now v < t -> refreshAnchors P v m1 = (m1, Ok tt)) /\
    (t <= e_now v -> (forall m2, refreshAnchors P v m1 = (m2, Ok tt) -> (exists files, e_list v dir = Ok files) /\ exists names', m_dirs m2 = [(dir, DirInfo names' (e_now v + period) period)])).
Proof.
  intros P v0 w cfg a dir d c factor rest Ea Et Ed Er D U L m period. subst m. pose proof (period_ok d c factor rest D U) as Pr. fold period in Pr.
  assert (K : exists files, e_list v0 dir = Ok files /\ exists names, m_dirs (w_mgr (fst (do P v0 (ELoad cfg None) w))) = [(dir, DirInfo names (e_now v0 + period) period)]).
  { cbn [do] in *. unfold load in *. rewrite (pbind_ok _ _ _ _ _ (fst (reset P (w_mgr (clear_outs w)))) tt) in * by reflexivity. rewrite (pbind_ok _ _ _ _ _ (fst (put_config cfg (fst (reset P (w_mgr (clear_outs w)))))) tt) in * by reflexivity.
    set (m0 := fst (put_config cfg _)) in *. assert (E0 : m_dirs m0 = []) by reflexivity. clearbody m0. assert (Eg : t_getitem cfg w_validator_anchor = [a]) by (rewrite InfoProps.C62_lookup; exact Ea). rewrite Eg in *.
    assert (F : forall k x, path k = [k] -> value k a = Some x -> firstValue a k = Ok (Some x)). { intros k x Ek H. unfold firstValue. rewrite (getitem_select a k Ek). unfold value in H. destruct (select [k] a); [discriminate H|]. rewrite H. reflexivity. }
    assert (La : loadAnchors P v0 [a] None m0 = pbind (addDirectory P v0 (Some dir) period) (fun _ => pret tt) m0).
    { cbn [loadAnchors]. rewrite (F w_type _ eq_refl Et), (F w_dir _ eq_refl Ed), (F w_refresh _ eq_refl Er). unfold pbind, plift. change (is_word (Some w_dir) w_dir) with true. cbv beta iota. match goal with |- context [refreshPeriod ?z] => assert (X : refreshPeriod z = Ok period) by exact Pr; rewrite X end. reflexivity. }
    rewrite La in *. clear La.
    unfold pbind, pret in *. destruct (addDirectory P v0 (Some dir) period m0) as [m1 [[]|x]] eqn:E; [|discriminate L]. destruct (addDirectory_dirs _ _ _ _ _ _ E) as ((files & El) & names & Em). exists files. split; [exact El|]. exists names. cbn [fst w_mgr]. rewrite Em, E0. reflexivity. }
  destruct K as (files & El & K). split; [eauto|]. split; [exact K|]. intros m1 names t E1 v. unfold refreshAnchors, pbind, pget. rewrite E1. cbn [refreshDirs di_next di_certs di_period]. unfold pbind. split.
  - intro T. replace (t <=? e_now v) with false by lia. reflexivity.
  - intro T. replace (t <=? e_now v) with true by lia. intros m2 E. destruct (dropCerts v names m1) as [m3 [[]|x]] eqn:Dc; [|discriminate E]. destruct (addDirectory P v (Some dir) period m3) as [m4 [[]|x]] eqn:A; [|discriminate E]. injection E as <-. destruct (addDirectory_dirs _ _ _ _ _ _ A) as (Ef & names' & Em). split; [exact Ef|]. exists names'. rewrite Em, (dropCerts_dirs _ _ _ _ _ Dc), E1. unfold dset. rewrite zlist_eqb_refl. reflexivity.
Qed.

Definition ref_cfg : tree := Tree None [(w_validator, Tree None [(w_trust_anchor, Tree None [(w_type, Tree (Some w_dir) []); (w_dir, Tree (Some [47]) []); (w_refresh, Tree (Some [50; 109]) [])])])].
Definition ref_v (now : Z) : env := Env now (fun _ => Err OtherError) (fun _ => Ok [[97]]) (fun _ => None).
Example C85_refresh_ex : snd (do lit_P (ref_v 5) (ELoad ref_cfg None) (run lit_P [])) = None /\ m_dirs (w_mgr (fst (do lit_P (ref_v 5) (ELoad ref_cfg None) (run lit_P [])))) = [([47], DirInfo [] 120005 120000)].
Proof. split; reflexivity. Qed.

Print Assumptions C85_expressions.
Print Assumptions C85_hierarchical.
Print Assumptions C85_any_verifies.
Print Assumptions C85_refresh.
