(** * Properties C63 (decisions of a validator configuration), C64 (loading it) and C65 (chains) *)
From Verif Require Import Base BaseLemmas NameModel NameSpec NameProofs TlvModel UriModel BlobModel WireModel CtlModel MatchModel MatchSpec CmdModel CmdSpec CmdProps AnchorSpec ValModel ValSpec ValProps HierModel HierSpec HierProps.
From Verif Require Import RegexModel RegexSpec RegexProofs RegexProofs2 RegexProofs3 RegexProofs4 RegexProps InfoModel InfoSpec InfoProofs ConfModel ConfSpec ConfProofs ConfProofs2.
From Coq Require Import Arith.
Local Open Scope res_scope.

(** ** The state of the policy *)
Section Pol.
Variable re_groups : str -> res nat.
Variable re_search : str -> str -> option (list (option str)).
Variable K : Type.
Variable b64decode : str -> res bytes.
Variable wireDecode : bytes -> res K.
Variable loading : action K -> option Base.exn.
Variable cbp : bool.
Hypothesis P : re_plain re_groups re_search.
Notation conf_load := (conf_load re_groups K b64decode wireDecode loading).
Notation conf_run := (conf_run re_groups re_search K b64decode wireDecode loading cbp).
Notation conf_check := (conf_check re_search cbp).
Notation conf_warm := (conf_warm re_search cbp).
Notation reads := (reads re_groups).
Notation reads_anchors := (reads_anchors K b64decode wireDecode).
Notation decided := (decided re_groups re_search).
Notation allowed := (allowed re_groups re_search).
Notation ordinary := (ordinary re_groups re_search).

Lemma rules_configured : forall l c, c_configured (fst (load_rules re_groups l c)) = c_configured c.
Proof. induction l as [|t l IH]; intros c; cbn [load_rules]; [reflexivity|]. destruct (r_create re_groups t) as [r|e]; [|reflexivity]. rewrite IH. destruct (r_interest r); reflexivity. Qed.
Lemma anchors_configured : forall l c, c_configured (fst (fst (load_anchors K b64decode wireDecode loading l c))) = c_configured c.
Proof.
  induction l as [|t l IH]; intros c; cbn [load_anchors]; [reflexivity|]. destruct (process_anchor K b64decode wireDecode loading t) as [[b a] [e|]]; [reflexivity|]. specialize (IH (if b then Policy true (c_configured c) (c_data c) (c_interest c) else c)). destruct (load_anchors K b64decode wireDecode loading l _) as [[c' a'] e']. cbn [fst] in *. rewrite IH. destruct b; reflexivity.
Qed.
Lemma load_configured : forall c t, c_configured (fst (fst (conf_load c t))) = true.
Proof.
  intros c t. unfold ConfModel.conf_load. destruct (if c_configured c then _ else _) as [c1 a1] eqn:E1. assert (C1 : c_configured c1 = true) by (destruct (c_configured c); injection E1 as <- _; reflexivity). destruct (t_getitem t w_validator) as [|v [|? ?]]; [exact C1| |exact C1].
  pose proof (rules_configured (t_getitem v w_rule) c1) as R. destruct (load_rules re_groups (t_getitem v w_rule) c1) as [c2 [e|]]; cbn [fst] in *; [congruence|]. pose proof (anchors_configured (t_getitem v w_trust_anchor) c2) as R'. destruct (load_anchors K b64decode wireDecode loading (t_getitem v w_trust_anchor) c2) as [[c3 a3] e3]. cbn [fst] in *. congruence.
Qed.
Definition is_load (o : conf_op) : bool := match o with CLoad _ => true | CCheck _ => false end.
Lemma check_configured : forall c p, c_configured (fst (conf_check c p)) = c_configured c.
Proof. intros c p. unfold ConfModel.conf_check. destruct (c_bypass c) eqn:B; [reflexivity|]. destruct (p_locator p) as [k|]; [|reflexivity]. destruct p as [d|n]; destruct (apply_rules _ _ _ _ _) as [l o]; reflexivity. Qed.
Lemma check_new : forall p, fst (conf_check c_new p) = c_new.
Proof. intros p. unfold ConfModel.conf_check. cbn [c_new c_bypass c_data c_interest apply_rules]. destruct (p_locator p) as [k|]; [|reflexivity]. destruct p as [d|n]; reflexivity. Qed.
Lemma run_configured : forall h, c_configured (conf_run h) = existsb is_load h /\ (c_configured (conf_run h) = false -> conf_run h = c_new).
Proof.
  intros h. induction h as [|o h IH] using rev_ind; [split; reflexivity|]. unfold ConfModel.conf_run in *. rewrite fold_left_app. cbn [fold_left]. rewrite existsb_app. cbn [existsb]. destruct IH as [I1 I2]. set (c := fold_left _ h c_new) in *. destruct o as [t|p]; cbn [conf_do is_load].
  - rewrite load_configured. cbn [orb]. rewrite orb_true_r. split; [reflexivity|discriminate].
  - rewrite check_configured. split; [rewrite I1; cbn [orb]; rewrite ?orb_false_r; reflexivity|]. intros X. rewrite (I2 X). apply check_new.
Qed.

(** ** C64: loading *)
(** [load] succeeds exactly if the tree has one section "validator" with rules and trust anchors
    that can be read, and every trust anchor can be loaded. *)
Theorem C64_load : forall h t, (exists c acts, conf_load (conf_run h) t = (c, acts, None)) <->
  exists cfg anchors, reads t cfg /\ reads_anchors t anchors /\ Forall (fun a => loading a = None) (flat_map (anchor_of K) anchors).
Proof.
  intros h t. destruct P as (A & L & E). rewrite load_start by (apply run_configured). split.
  - intros (c & acts & H). destruct (conf_load c_new t) as [[c' a'] e'] eqn:El. injection H as <- <- ->. eapply load_inv; [exact El|..]; assumption.
  - intros (cfg & m & R & Ra & G). destruct (load_ok re_groups re_search A L E K b64decode wireDecode loading t cfg m R Ra G) as (c & El & _). rewrite El. eauto.
Qed.
Lemma loaded : forall h t c acts cfg, conf_load (conf_run h) t = (c, acts, None) -> reads t cfg -> exists m, reads_anchors t m /\
  acts = (if existsb is_load h then [AResetAnchors K; AResetVerified K] else []) ++ flat_map (anchor_of K) m /\ c_bypass c = has_any K m /\ rep_p re_groups c cfg.
Proof.
  intros h t c acts cfg H R. destruct P as (A & L & E). rewrite load_start in H by (apply run_configured). destruct (conf_load c_new t) as [[c' a'] e'] eqn:El. injection H as <- <- ->. destruct (load_inv re_groups K b64decode wireDecode loading t c' a' El) as (cfg' & m & R' & Ra & G). destruct (load_ok re_groups re_search A L E K b64decode wireDecode loading t cfg m R Ra G) as (c2 & El' & B & Cf & Rp). rewrite El in El'. injection El' as -> ->. exists m. split; [exact Ra|]. split; [unfold resets; rewrite (proj1 (run_configured h)); reflexivity|]. split; [exact B|exact Rp].
Qed.
Lemma anchors_fun : forall t m m', reads_anchors t m -> reads_anchors t m' -> m = m'.
Proof.
  intros t m m' (v & E & F) (v' & E' & F'). assert (v' = v) by congruence. subst v'. clear E E'. revert m' F'. induction F as [|s a l m H F IH]; intros m' F'; inversion F' as [|? a' ? m2 H' F2]; subst; [reflexivity|]. f_equal; [|apply IH; exact F2].
  apply (anchor_ok K b64decode wireDecode loading) in H, H'. rewrite H in H'. destruct a as [x|], a' as [x'|]; cbn [anchor_of] in H'; congruence.
Qed.
(** What it does to the validator: the trust anchors in their order; a load after another one
    first removes all trust anchors and verified certificates. *)
Theorem C64_actions : forall h t c acts anchors, conf_load (conf_run h) t = (c, acts, None) -> reads_anchors t anchors ->
  acts = (if existsb is_load h then [AResetAnchors K; AResetVerified K] else []) ++ flat_map (anchor_of K) anchors.
Proof.
  intros h t c acts m H Ra. destruct (proj1 (C64_load h t)) as (cfg & m' & R & Ra' & _); [eauto|]. destruct (loaded h t c acts cfg H R) as (m2 & Ra2 & Ea & _). rewrite (anchors_fun t m m2 Ra Ra2). exact Ea.
Qed.
(** A load starts from nothing: what was loaded and checked before makes no difference. *)
Theorem C64_reload : forall h t, conf_load (conf_run h) t =
  let '(c, acts, e) := conf_load (conf_run []) t in (c, (if existsb is_load h then [AResetAnchors K; AResetVerified K] else []) ++ acts, e).
Proof. intros h t. rewrite load_start by (apply run_configured). change (conf_run []) with c_new. destruct (conf_load c_new t) as [[c a] e]. unfold resets. rewrite (proj1 (run_configured h)). reflexivity. Qed.
(** The exceptions: ValidatorConfigError, or what Name(uri), the base64 decoder or the validator raise *)
Theorem C64_errors : forall h t c acts e, conf_load (conf_run h) t = (c, acts, Some e) ->
  e = OtherError \/ (exists uri, n_set uri = Err e) \/ (exists x, b64decode x = Err e) \/ exists a, loading a = Some e.
Proof. intros h t c acts e H. destruct P as (A & L & E). exact (load_err re_groups re_search A L E K b64decode wireDecode loading _ _ _ _ _ H). Qed.

(** ** C63: decisions *)
Lemma any_trusts : forall t m, reads_anchors t m -> (has_any K m = true <-> trusts_all t).
Proof.
  intros t m (v & E & F). transitivity (Exists (says w_type w_any) (select [w_trust_anchor] v)); [|split; [intros X; exists v; auto|intros (v' & E' & X); congruence]]. clear E. induction F as [|s a l m H F IH]; cbn [has_any existsb].
  - split; [discriminate|intros X; inversion X].
  - rewrite orb_true_iff. fold (has_any K m). rewrite IH. split.
    + intros [X|X]; [|right; exact X]. destruct a; [discriminate X|]. left. exact H.
    + intros X. inversion X as [? ? X1|? ? X1]; subst; [|right; exact X1]. left. destruct a as [[| |f r d|c]|]; [contradiction H|contradiction H| | |reflexivity]; exfalso.
      * destruct H as [H _]. destruct d; destruct H as [H _]; pose proof (says_fun _ _ _ _ H X1) as Y; discriminate Y.
      * destruct H as [H _]. pose proof (says_fun _ _ _ _ H X1) as Y. discriminate Y.
Qed.
Lemma ready : forall h t c acts cfg ps, conf_load (conf_run h) t = (c, acts, None) -> reads t cfg ->
  rep_p re_groups (conf_warm c ps) cfg /\ (c_bypass (conf_warm c ps) = true <-> trusts_all t).
Proof.
  intros h t c acts cfg ps H R. destruct (loaded h t c acts cfg H R) as (m & Ra & _ & B & Rp). destruct P as (A & L & E). destruct (warm_rep re_groups re_search A cbp ps c cfg Rp) as (Rp' & B' & _). split; [exact Rp'|]. rewrite B', B. apply any_trusts. exact Ra.
Qed.
(** After a load, and whatever packets were checked before: without an anchor of the type "any",
    the first rule for the kind of the packet that matches it decides.  The key locator's
    certificate is asked for, or the packet is refused, or ValueError is raised. *)
Theorem C63_decision : forall h t c acts cfg ps p k, conf_load (conf_run h) t = (c, acts, None) -> reads t cfg -> ~ trusts_all t -> ordinary cfg ->
  located p k -> zlen (p_name p) <= 32767 -> zlen k <= 32767 ->
  exists d, decided (rules_for cfg p) (examined p) k d /\
    snd (conf_check (conf_warm c ps) p) = match d with Allow => VContinue (Some (i_ofName cbp k)) | Refuse => VFail | Choke => VRaise ValueError end.
Proof.
  intros h t c acts cfg ps p k H R Na O Lp Ln Lk. destruct (ready h t c acts cfg ps H R) as [Rp B]. assert (B' : c_bypass (conf_warm c ps) = false) by (destruct (c_bypass (conf_warm c ps)); [exfalso; apply Na, B; reflexivity|reflexivity]).
  destruct P as (A & _). destruct (conf_step re_groups re_search A cbp (conf_warm c ps) cfg p Rp) as (_ & _ & _ & _ & _ & S). apply locator_iff in Lp. destruct (S B' k Lp) as (o & Eo & Ns & _ & D). destruct (D O Ln Lk) as (Da & Dr & Dc). rewrite Eo. destruct o as [[| |]|e].
  - exists Allow. split; [apply Da; reflexivity|reflexivity].
  - exists Refuse. split; [apply Dr; reflexivity|reflexivity].
  - congruence.
  - destruct (Dc e eq_refl) as [-> X]. exists Choke. split; [exact X|reflexivity].
Qed.
(** A packet without a key locator that is a name is refused. *)
Theorem C63_no_locator : forall h t c acts cfg ps p, conf_load (conf_run h) t = (c, acts, None) -> reads t cfg -> ~ trusts_all t -> (forall k, ~ located p k) -> snd (conf_check (conf_warm c ps) p) = VFail.
Proof.
  intros h t c acts cfg ps p H R Na N. destruct (ready h t c acts cfg ps H R) as [Rp B]. assert (B' : c_bypass (conf_warm c ps) = false) by (destruct (c_bypass (conf_warm c ps)); [exfalso; apply Na, B; reflexivity|reflexivity]).
  destruct P as (A & _). destruct (conf_step re_groups re_search A cbp (conf_warm c ps) cfg p Rp) as (_ & _ & _ & _ & S & _). apply S; [exact B'|]. destruct (p_locator p) as [k|] eqn:Ek; [|reflexivity]. apply locator_iff in Ek. exfalso. eapply N. exact Ek.
Qed.
(** With an anchor of the type "any" every packet is accepted, without a certificate. *)
Theorem C63_any : forall h t c acts cfg ps p, conf_load (conf_run h) t = (c, acts, None) -> reads t cfg -> trusts_all t -> snd (conf_check (conf_warm c ps) p) = VContinue None.
Proof.
  intros h t c acts cfg ps p H R Ta. destruct (ready h t c acts cfg ps H R) as [Rp B]. destruct P as (A & _). destruct (conf_step re_groups re_search A cbp (conf_warm c ps) cfg p Rp) as (_ & _ & _ & S & _). apply S. apply B. exact Ta.
Qed.
(** For all configurations: only what some rule allows goes on, and only with a certificate. *)
Theorem C63_sound : forall h t c acts cfg ps p o, conf_load (conf_run h) t = (c, acts, None) -> reads t cfg -> ~ trusts_all t -> snd (conf_check (conf_warm c ps) p) = VContinue o ->
  exists k, located p k /\ o = Some (i_ofName cbp k) /\ allowed cfg p k.
Proof.
  intros h t c acts cfg ps p o H R Na V. destruct (ready h t c acts cfg ps H R) as [Rp B]. assert (B' : c_bypass (conf_warm c ps) = false) by (destruct (c_bypass (conf_warm c ps)); [exfalso; apply Na, B; reflexivity|reflexivity]).
  destruct P as (A & _). destruct (conf_step re_groups re_search A cbp (conf_warm c ps) cfg p Rp) as (_ & _ & _ & _ & N & S). destruct (p_locator p) as [k|] eqn:Ek; [|rewrite (N B' eq_refl) in V; discriminate V]. destruct (S B' k eq_refl) as (x & Eo & Ns & Al & _). rewrite Eo in V. destruct x as [[| |]|e]; try discriminate V. cbn [of_outcome] in V. injection V as <-. exists k. split; [apply locator_iff; exact Ek|]. split; [reflexivity|]. apply Al. reflexivity.
Qed.
End Pol.

(** *** The hierarchical checker *)
Section Hier.
Variable re_groups : str -> res nat.
Variable re_search : str -> str -> option (list (option str)).
Hypothesis P : re_plain re_groups re_search.
Notation caps_item := (caps_item re_groups re_search).
Notation captured := (captured re_groups re_search).
Notation passes := (passes re_groups re_search).
Notation refuses := (refuses re_groups re_search).

Lemma one_of : forall q (ws : list (list comp)), q = QOne -> within q (length ws) -> exists v, ws = [v].
Proof. intros q ws -> [L U]. cbn in L, U. destruct ws as [|v [|? ?]]; cbn [length] in *; [lia|eauto|lia]. Qed.
Lemma star_caps : forall j w, caps_item j (One [] QStar) w [].
Proof.
  intros j w. exists (map (fun c => [c]) w). split; [induction w as [|c w IH]; [reflexivity|cbn; f_equal; exact IH]|]. split; [split; cbn; [lia|exact I]|]. split.
  - apply Forall_forall. intros v I. apply in_map_iff in I. destruct I as (c & <- & _). exists [], c. split; reflexivity || (split; reflexivity).
  - rewrite <- map_rev. destruct (rev w) as [|c r]; [reflexivity|]. cbn [map]. exists c. split; reflexivity || (split; reflexivity).
Qed.
Lemma any_caps : forall w g, caps_item 0 (Group [One [] QStar] QOne) w g -> In (0%nat, w) g.
Proof.
  intros w g (ws & -> & L & F & R). destruct (one_of QOne ws eq_refl L) as [v ->]. cbn [rev app concat] in *. rewrite app_nil_r. destruct R as (s' & -> & _). left. reflexivity.
Qed.
Lemma any_caps_ok : forall w, caps_item 0 (Group [One [] QStar] QOne) w [(0%nat, w)].
Proof.
  intros w. assert (X : exists s', [(0%nat, w)] = (0%nat, w) :: s' /\ caps_of re_groups re_search 1 [One [] QStar] w s').
  { exists []. split; [reflexivity|]. exists w, [], [], []. split; [symmetry; apply app_nil_r|]. split; [reflexivity|]. split; [apply star_caps|split; reflexivity]. }
  exists [w]. split; [symmetry; apply app_nil_r|]. split; [split; cbn; lia|]. split; [constructor; [exists [(0%nat, w)]; exact X|constructor]|exact X].
Qed.
Lemma one_caps : forall j t w s, caps_item j (One t QOne) w s -> exists c, w = [c] /\ found re_search t c.
Proof.
  intros j t w s (ws & -> & L & F & R). destruct (one_of QOne ws eq_refl L) as [v ->]. cbn [rev app concat] in *. rewrite app_nil_r. destruct R as (c & -> & M). exists c. split; [reflexivity|]. unfold found. destruct t as [|x t]; [left; reflexivity|right]. cbn [set_caps] in M. destruct (re_search (x :: t) (c_toEscapedString c)); [discriminate|]. destruct M as [X _]. discriminate X.
Qed.
Lemma one_caps_ok : forall j t c, found re_search t c -> exists s, caps_item j (One t QOne) [c] s.
Proof.
  intros j t c Fo. assert (X : exists s, member_caps re_groups re_search j false [t] [c] s).
  { destruct t as [|x t]; [exists [], c; split; [reflexivity|split; reflexivity]|]. destruct Fo as [Fo|Fo]; [discriminate Fo|]. destruct (re_search (x :: t) (c_toEscapedString c)) as [g|] eqn:E; [|congruence]. eexists. exists c. split; [reflexivity|]. cbn [set_caps]. rewrite E. split; reflexivity. }
  destruct X as [s X]. exists s, [[c]]. split; [reflexivity|]. split; [split; cbn; lia|]. split; [constructor; [eauto|constructor]|exact X].
Qed.
Definition p_any : regex := Regex true [Group [One [] QStar] QOne] true.
Definition p_key : regex := Regex true [Group [One [] QStar] QOne; One KEYv QOne; One [] QOne] true.
Lemma any_captured : forall n ref, captured p_any n ref -> ref 1 = n.
Proof.
  intros n ref (u & v & w & g & -> & Hu & Hw & (a & b & s1 & s2 & -> & -> & C1 & -> & ->) & _ & R). cbn [p_any x_start x_stop] in *. rewrite (Hu eq_refl), (Hw eq_refl) in *. rewrite !app_nil_r in *. cbn [app]. exact (R 0%nat _ (any_caps _ _ C1)).
Qed.
Lemma any_captured_ok : forall n, captured p_any n (fun _ => n).
Proof.
  intros n. exists [], n, [], [(0%nat, n)]. split; [rewrite app_nil_r; reflexivity|]. split; [reflexivity|]. split; [reflexivity|]. split.
  - exists n, [], [(0%nat, n)], []. split; [rewrite app_nil_r; reflexivity|]. split; [reflexivity|]. split; [apply any_caps_ok|split; reflexivity].
  - split; [reflexivity|]. intros j c [X|[]]. injection X as <- <-. reflexivity.
Qed.
Lemma key_captured : forall k ref, captured p_key k ref -> exists u c d, k = u ++ [c; d] /\ found re_search KEYv c /\ ref 1 = u.
Proof.
  intros k ref (u & v & w & g & -> & Hu & Hw & Cg & _ & R). cbn [p_key x_start x_stop x_items] in *. rewrite (Hu eq_refl), (Hw eq_refl) in *. rewrite app_nil_r. cbn [app].
  destruct Cg as (a & b & s1 & s2 & -> & -> & C1 & Cg). destruct Cg as (a2 & b2 & s3 & s4 & -> & -> & C2 & Cg). destruct Cg as (a3 & b3 & s5 & s6 & -> & -> & C3 & -> & ->). apply one_caps in C2, C3. destruct C2 as (c & -> & Fc), C3 as (d & -> & _). exists a, c, d. split; [reflexivity|]. split; [exact Fc|]. apply (R 0%nat a). apply in_or_app. left. apply any_caps. exact C1.
Qed.
Lemma key_captured_ok : forall u c d, found re_search KEYv c -> exists ref, captured p_key (u ++ [c; d]) ref /\ ref 1 = u.
Proof.
  intros u c d Fc. destruct P as (A & L & E0). pose proof (key_groups re_groups re_search L) as G. destruct (one_caps_ok 1 KEYv c Fc) as [s2 C2]. destruct (one_caps_ok 1 [] d (or_introl eq_refl)) as [s3 C3].
  assert (N2 : s2 = []). { destruct C2 as (ws & Ew & Lw & F & R). destruct (one_of QOne ws eq_refl Lw) as [v ->]. cbn [rev app] in R. destruct R as (c' & _ & M). cbn [set_caps KEYv] in M. fold KEYv in M. destruct (re_search KEYv (c_toEscapedString c')) as [g|]; [|destruct M as [X _]; discriminate X]. destruct M as [_ ->]. unfold groups. rewrite G. reflexivity. }
  assert (N3 : s3 = []). { destruct C3 as (ws & Ew & Lw & F & R). destruct (one_of QOne ws eq_refl Lw) as [v ->]. cbn [rev app] in R. destruct R as (c' & _ & M). cbn [set_caps] in M. destruct M as [_ ->]. reflexivity. }
  subst s2 s3. exists (fun i => if i =? 0 then u ++ [c; d] else u). split; [|reflexivity]. exists [], (u ++ [c; d]), [], [(0%nat, u)]. split; [rewrite app_nil_r; reflexivity|]. split; [reflexivity|]. split; [reflexivity|]. split.
  - cbn [p_key x_items caps_of]. exists u, [c; d], [(0%nat, u)], []. split; [reflexivity|]. split; [reflexivity|]. split; [apply any_caps_ok|]. exists [c], [d], [], []. split; [reflexivity|]. split; [reflexivity|]. assert (Ns : (0 + nrefs_item re_groups (Group [One [] QStar] QOne) = 1)%nat) by (cbn; unfold groups; rewrite E0; reflexivity). assert (Nk : (1 + nrefs_item re_groups (One KEYv QOne) = 1)%nat) by (cbn [nrefs_item]; unfold groups; rewrite G; reflexivity). rewrite Ns. split; [exact C2|]. rewrite Nk. exists [d], [], [], []. split; [reflexivity|]. split; [reflexivity|]. split; [exact C3|split; reflexivity].
  - split; [reflexivity|]. intros j x [X|[]]. injection X as <- <-. reflexivity.
Qed.
Lemma one_ref : forall ref out, expands ref h_expand out <-> out = ref 1.
Proof.
  intros ref out. split.
  - intros (ps & F & E & ->). destruct ps as [|[i|t] ps]; [discriminate E| |discriminate E]. inversion F as [|? ? Np F']; subst. destruct Np as [Ni Fi]. cbn [flat_map p_text] in E. unfold h_expand in E. injection E as E. destruct i as [|x i]; [congruence|]. cbn [app] in E. injection E as <- E. symmetry in E. apply app_eq_nil in E. destruct E as [-> E]. destruct ps as [|[j|t] ps]; [|discriminate E|discriminate E]. cbn. apply app_nil_r.
  - intros ->. exists [Ref [49]]. split; [constructor; [split; [discriminate|constructor; [lia|constructor]]|constructor]|]. split; [reflexivity|]. cbn. symmetry. apply app_nil_r.
Qed.
(** The hierarchical checker lets a packet pass exactly if the last but one component of the key
    locator contains the text KEY and the components before it begin the name. *)
Definition hier_passes (n k : name) : Prop := exists u c d, k = u ++ [c; d] /\ substring [75; 69; 89] (c_toEscapedString c) /\ prefix (vals u) (vals n).
Lemma found_key : forall c, found re_search KEYv c <-> substring [75; 69; 89] (c_toEscapedString c).
Proof.
  intros c. destruct P as (_ & L & _). destruct (L KEYv) as [_ X]; [discriminate|repeat (constructor; [unfold literal; lia|]); constructor|]. rewrite <- X. unfold found. change (quoted KEYv) with KEYv. split; [intros [Y|Y]; [discriminate Y|exact Y]|auto].
Qed.
Lemma snoc2 : forall (u u' : name) a b a' b', u ++ [a; b] = u' ++ [a'; b'] -> u = u' /\ a = a' /\ b = b'.
Proof. intros u u' a b a' b' E. apply (f_equal (@rev comp)) in E. rewrite !rev_app_distr in E. cbn in E. injection E as -> -> E. apply (f_equal (@rev comp)) in E. rewrite !rev_involutive in E. auto. Qed.
Theorem C63_hierarchical : forall n k, (passes n k hier_checker <-> hier_passes n k) /\ (refuses n k hier_checker <-> ~ hier_passes n k).
Proof.
  intros n k.
  assert (M : forall rp rk np nk, captured p_any n rp -> captured p_key k rk -> expands rp h_expand np -> expands rk h_expand nk -> (related RPrefix nk np <-> hier_passes n k)).
  { intros rp rk np nk Cp Ck Ep Ek. apply one_ref in Ep. apply one_ref in Ek. apply any_captured in Cp. apply key_captured in Ck. destruct Ck as (u & c & d & -> & Fc & Eu). cbn [related]. rewrite Ep, Ek, Cp, Eu. split.
    - intros X. exists u, c, d. split; [reflexivity|]. split; [apply found_key; exact Fc|exact X].
    - intros (u' & c' & d' & E & _ & X). apply snoc2 in E. destruct E as (-> & _). exact X. }
  assert (X : hier_passes n k -> exists rp rk np nk, captured p_any n rp /\ captured p_key k rk /\ expands rp h_expand np /\ expands rk h_expand nk /\ related RPrefix nk np).
  { intros (u & c & d & -> & S & Px). destruct (key_captured_ok u c d) as (rk & Ck & Ek); [apply found_key; exact S|]. exists (fun _ => n), rk, n, u. split; [apply any_captured_ok|]. split; [exact Ck|]. split; [apply one_ref; reflexivity|]. split; [apply one_ref; symmetry; exact Ek|exact Px]. }
  split.
  - split; [|exact X]. intros (rp & rk & np & nk & Cp & Ck & Ep & Ek & R). exact (proj1 (M _ _ _ _ Cp Ck Ep Ek) R).
  - split.
    + intros [N|[N|(rp & rk & np & nk & Cp & Ck & Ep & Ek & R)]] H.
      * apply N. exists [], n, []. split; [rewrite app_nil_r; reflexivity|]. split; [|auto]. exists n, []. split; [rewrite app_nil_r; reflexivity|]. split; [|reflexivity]. destruct (any_captured_ok n) as (u' & v' & w' & g & E & Hu & Hw & Cg & _). cbn [p_any x_start x_stop x_items] in *. rewrite (Hu eq_refl), (Hw eq_refl) in E. rewrite app_nil_r in E. cbn [app] in E. subst v'. apply caps_lang in Cg. destruct Cg as (a & b & -> & La & ->). rewrite app_nil_r. exact La.
      * apply N. destruct (X H) as (_ & rk & _ & _ & _ & (u' & v' & w' & g & E & Hu & Hw & Cg & _) & _). exists u', v', w'. split; [exact E|]. split; [eapply caps_lang; exact Cg|auto].
      * apply R. apply (M _ _ _ _ Cp Ck Ep Ek). exact H.
    + intros H. destruct (le_lt_dec 2 (length k)) as [L|L].
      * destruct (last2 k) as (u & c & d & ->); [unfold zlen; lia|].
        destruct (re_search KEYv (c_toEscapedString c)) as [g|] eqn:Es.
        -- assert (Fc : found re_search KEYv c) by (right; congruence). right. right. destruct (key_captured_ok u c d Fc) as (rk & Ck & Ek). exists (fun _ => n), rk, n, u. split; [apply any_captured_ok|]. split; [exact Ck|]. split; [apply one_ref; reflexivity|]. split; [apply one_ref; symmetry; exact Ek|]. intros Px. apply H. exists u, c, d. split; [reflexivity|]. split; [apply found_key; exact Fc|exact Px].
        -- right. left. intros (a & v & b & E & Lv & Ha & Hb). cbn [x_start x_stop x_items] in *. rewrite (Ha eq_refl), (Hb eq_refl), app_nil_r in E. cbn [app] in E. subst v. destruct Lv as (a1 & b1 & E1 & _ & (a2 & b2 & -> & (ws & -> & Fw & Lw) & (a3 & b3 & -> & (ws' & -> & Fw' & Lw') & ->))). destruct (one_of QOne ws eq_refl Lw) as [v ->]. destruct (one_of QOne ws' eq_refl Lw') as [v' ->]. inversion Fw as [|? ? (c1 & -> & X1) _]; subst. inversion Fw' as [|? ? (d1 & -> & _) _]; subst. cbn [concat app] in E1. apply snoc2 in E1. destruct E1 as (_ & <- & _). inversion X1 as [? ? X2|? ? X2]; subst; [destruct X2 as [X2|X2]; [discriminate X2|congruence]|inversion X2].
      * right. left. intros (a & v & b & E & Lv & Ha & Hb). cbn [x_start x_stop x_items] in *. rewrite (Ha eq_refl), (Hb eq_refl), app_nil_r in E. cbn [app] in E. subst v. destruct Lv as (a1 & b1 & -> & _ & (a2 & b2 & -> & (ws & -> & Fw & Lw) & (a3 & b3 & -> & (ws' & -> & Fw' & Lw') & ->))). destruct (one_of QOne ws eq_refl Lw) as [v ->]. destruct (one_of QOne ws' eq_refl Lw') as [v' ->]. inversion Fw as [|? ? (c1 & -> & X1) _]; subst. inversion Fw' as [|? ? (d1 & -> & _) _]; subst. cbn [concat app] in L. rewrite !app_length in L. cbn in L. lia.
Qed.

(** *** Configurations that say one thing *)
Theorem C63_definite : (forall n r, definite re_groups re_search (CName n r)) /\ (forall x, definite re_groups re_search (CRegex x)) /\ definite re_groups re_search hier_checker.
Proof.
  split; [|split].
  - intros m r n k [(i & Ki & R) (i' & Ki' & R')]. apply R'. rewrite (key_of_fun i' i k Ki' Ki). exact R.
  - intros x n k [X Y]. exact (Y X).
  - intros n k [X Y]. destruct (C63_hierarchical n k) as [H1 H2]. apply H2 in Y. apply Y. apply H1. exact X.
Qed.
Lemma chokes_not : forall n k c, chokes k c -> ~ passes n k c /\ ~ refuses n k c.
Proof. intros n k [m r|x|p pe kx ke r] H; cbn [chokes] in H; [|contradiction|contradiction]. split; intros (i & Ki & _); exact (H i Ki). Qed.
Lemma first_split : forall (X : Type) (Q : X -> Prop) a x b a' x' b', a ++ x :: b = a' ++ x' :: b' -> Forall Q a -> ~ Q x -> Forall Q a' -> ~ Q x' -> x = x'.
Proof.
  intros X Q. induction a as [|y a IH]; intros x b [|y' a'] x' b' E F N F' N'; cbn [app] in E; injection E as -> E.
  - reflexivity.
  - inversion F'; subst. contradiction.
  - inversion F; subst. contradiction.
  - inversion F; subst. inversion F'; subst. eapply IH; eauto.
Qed.
Lemma checked_fun : forall cs n k d d', Forall (definite re_groups re_search) cs -> checked re_groups re_search cs n k d -> checked re_groups re_search cs n k d' -> d = d'.
Proof.
  intros cs n k d d' D H H'.
  assert (Rf : forall c, In c cs -> refuses n k c -> ~ passes n k c) by (intros c I R Q; rewrite Forall_forall in D; apply (D c I n k); auto).
  assert (G : forall a c b, cs = a ++ c :: b -> In c cs) by (intros a c b ->; apply in_or_app; right; left; reflexivity).
  assert (Al : forall a c b, cs = a ++ c :: b -> Forall (passes n k) cs -> ~ passes n k c -> False) by (intros a c b E F N; rewrite Forall_forall in F; apply N, F; eapply G; exact E).
  destruct d, d'; try reflexivity; cbn [checked] in *; exfalso.
  - destruct H' as (a & c & b & E & F & R). apply (Al a c b E H). apply Rf; [eapply G; exact E|exact R].
  - destruct H' as (a & c & b & E & F & R). apply (Al a c b E H). exact (proj1 (chokes_not n k c R)).
  - destruct H as (a & c & b & E & F & R). apply (Al a c b E H'). apply Rf; [eapply G; exact E|exact R].
  - destruct H as (a & c & b & E & F & R), H' as (a' & c' & b' & E' & F' & R'). assert (c = c'). { eapply (first_split _ (passes n k) a c b a' c' b'); [congruence|exact F| |exact F'|exact (proj1 (chokes_not n k c' R'))]. apply Rf; [eapply G; exact E|exact R]. } subst c'. exact (proj2 (chokes_not n k c R') R).
  - destruct H as (a & c & b & E & F & R). apply (Al a c b E H'). exact (proj1 (chokes_not n k c R)).
  - destruct H as (a & c & b & E & F & R), H' as (a' & c' & b' & E' & F' & R'). assert (c = c'). { eapply (first_split _ (passes n k) a c b a' c' b'); [congruence|exact F|exact (proj1 (chokes_not n k c R))|exact F'|]. apply Rf; [eapply G; exact E'|exact R']. } subst c'. exact (proj2 (chokes_not n k c R) R').
Qed.
(** with such checkers there is one decision for a packet *)
Theorem C63_unique : forall cfg n k d d', Forall (fun r => Forall (definite re_groups re_search) (s_checkers r)) cfg ->
  decided re_groups re_search cfg n k d -> decided re_groups re_search cfg n k d' -> d = d'.
Proof.
  intros cfg n k d d' D H H'.
  assert (N : forall a r b, cfg = a ++ r :: b -> rule_matches re_search n r -> ~ Forall (fun r => ~ rule_matches re_search n r) cfg). { intros a r b -> M F. rewrite Forall_forall in F. apply (F r); [apply in_or_app; right; left; reflexivity|exact M]. }
  destruct H as [[-> F]|(a & r & b & E & F & M & Cd)], H' as [[-> F']|(a' & r' & b' & E' & F' & M' & Cd')].
  - reflexivity.
  - exfalso. exact (N _ _ _ E' M' F).
  - exfalso. exact (N _ _ _ E M F').
  - assert (r = r'). { eapply (first_split _ (fun r => ~ rule_matches re_search n r) a r b a' r' b'); [congruence|exact F|tauto|exact F'|tauto]. } subst r'. eapply checked_fun; [|exact Cd|exact Cd']. rewrite Forall_forall in D. apply D. rewrite E. apply in_or_app. right. left. reflexivity.
Qed.
(** The answer for a packet does not depend on the packets before it. *)
Theorem C63_history : forall K b64decode wireDecode loading cbp h h' t c c' acts acts' cfg ps ps' p k, conf_load re_groups K b64decode wireDecode loading (conf_run re_groups re_search K b64decode wireDecode loading cbp h) t = (c, acts, None) ->
  conf_load re_groups K b64decode wireDecode loading (conf_run re_groups re_search K b64decode wireDecode loading cbp h') t = (c', acts', None) ->
  reads re_groups t cfg -> ~ trusts_all t -> ordinary re_groups re_search cfg -> Forall (fun r => Forall (definite re_groups re_search) (s_checkers r)) cfg ->
  located p k -> zlen (p_name p) <= 32767 -> zlen k <= 32767 ->
  snd (conf_check re_search cbp (conf_warm re_search cbp c ps) p) = snd (conf_check re_search cbp (conf_warm re_search cbp c' ps') p).
Proof.
  intros K b64 wd ld cbp h h' t c c' acts acts' cfg ps ps' p k H H' R Na O D Lp Ln Lk.
  destruct (C63_decision re_groups re_search K b64 wd ld cbp P h t c acts cfg ps p k H R Na O Lp Ln Lk) as (d & Hd & ->). destruct (C63_decision re_groups re_search K b64 wd ld cbp P h' t c' acts' cfg ps' p k H' R Na O Lp Ln Lk) as (d' & Hd' & ->).
  assert (d = d'); [|subst; reflexivity]. eapply C63_unique; [|exact Hd|exact Hd']. unfold rules_for. rewrite Forall_forall in *. intros r I. apply filter_In in I. apply D. apply I.
Qed.
End Hier.

(** ** C65: validation with a configuration *)
Section Chain.
Variable re_groups : str -> res nat.
Variable re_search : str -> str -> option (list (option str)).
Variable K : Type.
Variable b64decode : str -> res bytes.
Variable wireDecode : bytes -> res K.
Variable loading : action K -> option Base.exn.
Variable sha256 : bytes -> bytes.
Variable period : data -> res (Z * Z).
Variable verify : packet -> data -> res bool.
Variable express : nat -> vreq -> option Base.exn.
Variable files : nat -> Z -> res (list (option vcert)).
Variable online cbp : bool.
Variable maxDepth : Z.
Variable earlier : nat -> packet -> list packet.
Hypothesis P : re_plain re_groups re_search.
Variable before : list conf_op.
Variable t : tree.
Variable cfg : list srule.
Variable c : policy.
Variable acts : list (action K).
Hypothesis Ld : conf_load re_groups K b64decode wireDecode loading (conf_run re_groups re_search K b64decode wireDecode loading cbp before) t = (c, acts, None).
Hypothesis Rd : reads re_groups t cfg.
Variable H : list (@event packet vcert).
Hypothesis Nr : forall id n, In (EAnchor (TRemove id n)) H -> Forall c_valid n.
Notation crun := (conf_val re_search sha256 period verify express files online cbp maxDepth c earlier).
Notation allow := (allowed re_groups re_search cfg).
Notation conf_one := (conf_one allow verify).
Notation conf_chain := (conf_chain allow verify).
Notation root := (root files H).
Notation cpol := (fun (k : nat) (p : packet) => conf_pol re_search cbp c (earlier k p) p).
Notation cpolc := (fun (k : nat) (x : vcert) => conf_pol re_search cbp c (earlier k (PData (proj1_sig x))) (PData (proj1_sig x))).
Notation trusted := (trusted (vperiod period) vcheck (vmatches sha256) (vverc verify) cpolc files H).
Notation signed := (signed (vperiod period) vcheck (vmatches sha256) (vverc verify) cpolc files H).
Hypothesis Na : ~ trusts_all t.

Lemma cpol_inv : forall ps p o, conf_pol re_search cbp c ps p = VContinue o -> exists k r, o = Some r /\ proj1_sig r = i_ofName cbp k /\ located p k /\ allow p k.
Proof.
  intros ps p o E. unfold conf_pol in E. destruct (snd (conf_check re_search cbp (conf_warm re_search cbp c ps) p)) as [|x| |] eqn:V; try discriminate E.
  apply (C63_sound re_groups re_search K b64decode wireDecode loading cbp P before t c acts cfg ps p x Ld Rd Na) in V. destruct V as (k & L & -> & Al).
  destruct (Bool.bool_dec (n_validb (i_name (i_ofName cbp k))) true) as [h|h]; [|discriminate E]. injection E as <-. exists k, (exist _ (i_ofName cbp k) h). auto.
Qed.
Definition creach (x : vcert) : Prop := root x \/ exists a chain, root a /\ conf_chain (proj1_sig a) chain (PData (proj1_sig x)).
Lemma cchain_app : forall ch1 a x ch2 p, conf_chain a ch1 (PData x) -> conf_chain x ch2 p -> conf_chain a (ch1 ++ x :: ch2) p.
Proof. induction ch1 as [|y ch1 IH]; intros a x ch2 p H1 H2; cbn in *; [auto|]. destruct H1. split; [assumption|]. apply IH; assumption. Qed.
Lemma creach_to : forall x ch p, creach x -> conf_chain (proj1_sig x) ch p -> exists a chain, root a /\ conf_chain (proj1_sig a) chain p.
Proof. intros x ch p [R|(a & ch1 & R & X)] Y; [exists x, ch; auto|]. exists a, (ch1 ++ proj1_sig x :: ch). split; [exact R|]. apply cchain_app; assumption. Qed.
Lemma clink_one : forall k x r a, accepted (vperiod period) vcheck cpolc H k x r -> vmatches sha256 r a = true -> vverc verify x a = Ok true -> conf_one (proj1_sig a) (PData (proj1_sig x)).
Proof.
  intros k x r a (j & e & now & nb & na & _ & _ & _ & E & _) M V. apply cpol_inv in E. destruct E as (kl & r' & E & Er & L & X). injection E as <-. split; [exact V|]. exists kl. split; [exact L|]. split; [|exact X]. eapply matches_linked; eassumption.
Qed.
Lemma csigned_reach : forall j x a e r, nth_error H j = Some e -> accepted (vperiod period) vcheck cpolc H (S j) x r -> vmatches sha256 r a = true -> vverc verify x a = Ok true -> creach a -> creach x.
Proof. intros j x a e r N A M V R. right. eapply (creach_to a [] _ R). cbn [ConfSpec.conf_chain]. eapply clink_one; eassumption. Qed.
Fixpoint ctrusted_reach k now x (T : trusted k now x) {struct T} : (k <= length H)%nat -> creach x
with cfrom_signed j now x (S : signed j now x) {struct S} : creach x.
Proof.
  - destruct T as [k now x A|k now j now' x nb na L _ N _ _ _ _|k now j now' x nb na L _ S _ _ _ _]; intros Lk.
    + left. left. exists k. auto.
    + left. right. exists now'. eapply nth_error_In. exact N.
    + exact (cfrom_signed j now' x S).
  - destruct S as [j e now x r a N _ A M V R]. apply (csigned_reach j x a e r N A M V). destruct R as [R|R].
    + apply (ctrusted_reach _ _ _ R). apply nth_error_Some. congruence.
    + exact (cfrom_signed _ _ _ R).
Qed.
Lemma csigns_chain : forall k j0 chain r rs p rt, chased (vperiod period) vcheck (vmatches sha256) cpol cpolc H k j0 chain (r :: rs) -> vmatches sha256 r rt = true ->
  (exists now, nth_error H j0 = Some (EValidate now p)) -> signs (vver verify) (vverc verify) rt chain p -> conf_chain (proj1_sig rt) (map (@proj1_sig _ _) chain) p.
Proof.
  intros k j0 chain. induction chain as [|x chain IH]; intros r rs p rt Ch M (now & E0) S.
  - inversion Ch; subst. rewrite E0 in *. match goal with X : Some _ = Some _ |- _ => injection X as <- <- end. cbn [map ConfSpec.conf_chain signs] in *.
    match goal with X : conf_pol _ _ _ _ _ = _ |- _ => apply cpol_inv in X; destruct X as (kl & r' & Eo & Er & L & Y) end. injection Eo as <-. split; [exact S|]. exists kl. split; [exact L|]. split; [|exact Y]. eapply matches_linked; eassumption.
  - inversion Ch; subst. cbn [map signs] in *. destruct S as [S1 S2]. cbn [ConfSpec.conf_chain]. split; [eapply clink_one; eassumption|]. eapply IH; eauto.
Qed.
(** Without an anchor of the type "any", every packet that was accepted has a chain of certificates
    from a root; the signatures are good, each key locator names the certificate before it, and a
    rule of the configuration allows each packet and certificate of the chain its key locator. *)
Theorem C65_chain : forall i, In (i, Success) (w_log (crun H)) ->
  exists j now p a chain, nth_error H j = Some (EValidate now p) /\ ValSpec.starts H j = i /\ root a /\ conf_chain (proj1_sig a) chain p.
Proof.
  intros i Ii. apply (C42_sound _ _ _ _ _ _ _ _ _ _ _ _ _) in Ii; [|intros x; apply validb_ok, (proj2_sig x)|intros r; apply validb_ok, (proj2_sig r)|exact Nr].
  destruct Ii as (j0 & now0 & p & L0 & E0 & St & [B|(j & e & now & chain & r & rs & rt & Lj & Ej & Te & Ch & _ & _ & M & S & T)]).
  - apply cpol_inv in B. destruct B as (k & r & B & _). discriminate B.
  - assert (R : creach rt) by (eapply ctrusted_reach; [exact T|lia]). destruct (creach_to rt (map (@proj1_sig _ _) chain) p R) as (a & ch & Ra & X); [eapply csigns_chain; eauto|].
    exists j0, now0, p, a, ch. auto.
Qed.
(** If every rule has the hierarchical checker, the chain is one of the simple hierarchy (C54). *)
Lemma prefix_trans : forall (X : Type) (a b d : list X), prefix a b -> prefix b d -> prefix a d.
Proof. intros X a b d [s E1] [s' E2]. exists (s ++ s'). subst. rewrite app_assoc. reflexivity. Qed.
Lemma examined_prefix : forall p, prefix (vals (examined p)) (vals (p_name p)).
Proof. intros [d|n]; unfold examined; cbn [is_interest p_name]; [exists []; rewrite app_nil_r; reflexivity|]. exists (skipn (length n - 2) (vals n)). unfold vals, without2. rewrite <- firstn_map. symmetry. apply firstn_skipn. Qed.
Lemma hier_one : forall a p, Forall (fun r => In hier_checker (s_checkers r)) cfg -> conf_one a p -> HierSpec.one verify a p.
Proof.
  intros a p Hh (V & k & L & Nc & (r & I & _ & _ & _ & F)). split; [exact V|]. exists k. split; [exact L|]. split; [exact Nc|]. rewrite Forall_forall in Hh, F. specialize (F _ (Hh r I)). apply (C63_hierarchical re_groups re_search P) in F. destruct F as (u & x & d & -> & _ & Px). unfold vals at 1. rewrite map_app. cbn [map]. rewrite without2_app. eapply prefix_trans; [exact Px|apply examined_prefix].
Qed.
Theorem C65_hierarchical : Forall (fun r => In hier_checker (s_checkers r)) cfg -> forall i, In (i, Success) (w_log (crun H)) ->
  exists j now p a chain, nth_error H j = Some (EValidate now p) /\ ValSpec.starts H j = i /\ root a /\ chain_to verify (proj1_sig a) chain p /\
    (well_formed (proj1_sig a) chain p -> exists identity, cert_of identity (d_name (proj1_sig a)) /\ prefix identity (vals (p_name p))).
Proof.
  intros Hh i Ii. destruct (C65_chain i Ii) as (j & now & p & a & chain & E & St & R & Ch). exists j, now, p, a, chain. split; [exact E|]. split; [exact St|]. split; [exact R|].
  assert (X : forall ch a, conf_chain a ch p -> chain_to verify a ch p). { induction ch as [|y ch IH]; intros a0 Hc; cbn in *; [apply hier_one; assumption|]. destruct Hc as [H1 H2]. split; [apply hier_one; assumption|apply IH; exact H2]. }
  apply X in Ch. split; [exact Ch|]. intros W. destruct (proj1 W (proj1_sig a)) as [ida Ca]; [left; reflexivity|]. exists ida. split; [exact Ca|]. eapply chain_authority; eassumption.
Qed.
End Chain.
(** With an anchor of the type "any" every validation succeeds at once. *)
Theorem C65_any : forall re_groups re_search K b64decode wireDecode loading cbp before t cfg c acts ps p, re_plain re_groups re_search ->
  conf_load re_groups K b64decode wireDecode loading (conf_run re_groups re_search K b64decode wireDecode loading cbp before) t = (c, acts, None) -> reads re_groups t cfg -> trusts_all t ->
  conf_pol re_search cbp c ps p = VContinue None.
Proof. intros rg rs K b64 wd ld cbp before t cfg c acts ps p P Ld Rd Ta. unfold conf_pol. rewrite (C63_any rg rs K b64 wd ld cbp P before t c acts cfg ps p Ld Rd Ta). reflexivity. Qed.

(** ** Examples, and what does not hold *)
Definition leaf (v : str) : tree := Tree (Some v) [].
Definition sec (ch : list (str * tree)) : tree := Tree None ch.
Definition conf_of (rules anchors : list (list (str * tree))) : tree := sec [(w_validator, sec (map (fun r => (w_rule, sec r)) rules ++ map (fun a => (w_trust_anchor, sec a)) anchors))].
Definition a_file : list (str * tree) := [(w_type, leaf w_file); (w_file_name, leaf [97]); (w_refresh, leaf [50; 109])].
(** rules for Data packets: hierarchical, for names that begin with /a; a customized one *)
Definition r_hier : list (str * tree) :=
  [(w_id, leaf [49]); (w_for, leaf w_data); (w_filter, sec [(w_type, leaf w_name); (w_name, leaf [47; 97]); (w_relation, leaf w_prefix)]); (w_checker, sec [(w_type, leaf w_hierarchical)])].
Definition r_custom (l : list (str * tree)) : list (str * tree) :=
  [(w_id, leaf [50]); (w_for, leaf w_data); (w_checker, sec [(w_type, leaf w_customized); (w_key_locator, sec ((w_type, leaf w_name) :: l))])].
Definition ld (t : tree) : policy * list (action unit) * option Base.exn := conf_load lit_groups unit (fun _ => Ok []) (fun _ => Ok tt) (fun _ => None) c_new t.
Definition pk (n k : name) : packet := PData (Data n mi_empty None (mksig k)).
Definition ck (c : policy) (ps : list packet) (p : packet) : verdict interest := snd (conf_check lit_search true (conf_warm lit_search true c ps) p).
Lemma lit_plain : re_plain lit_groups lit_search.
Proof. split; [apply lit_literal|]. split; [apply lit_literal|reflexivity]. Qed.
Definition t_hier : tree := conf_of [r_hier] [a_file].
Definition c_hier : policy := fst (fst (ld t_hier)).
Definition cfg_hier : list srule := [SRule false [SName [g [97]] RPrefix] [hier_checker]].
(** the hypotheses of the theorems *)
Example C63_ex_load : ld t_hier = (c_hier, [ALoad unit [97] 120000 false], None) /\ reads lit_groups t_hier cfg_hier /\ ~ trusts_all t_hier /\ ordinary lit_groups lit_search cfg_hier /\ Forall (fun r => Forall (definite lit_groups lit_search) (s_checkers r)) cfg_hier.
Proof.
  split; [vm_compute; reflexivity|]. split; [|split; [|split]].
  - eexists. split; [reflexivity|]. constructor; [|constructor]. split; [discriminate|]. split; [exists w_data; split; [|apply reads_lower]; reflexivity|]. split; [|split; [|discriminate]].
    + constructor; [|constructor]. split; [exists w_name; split; [|apply reads_lower]; reflexivity|]. exists [47; 97]. split; [reflexivity|]. split; [reflexivity|]. exists w_prefix. split; [|apply reads_lower]; reflexivity.
    + constructor; [|constructor]. left. split; [exists w_hierarchical; split; [|apply reads_lower]; reflexivity|reflexivity].
  - intros (v & E & X). injection E as <-. inversion X as [? ? (w & Ew & Y)|? ? X']; subst; [|inversion X']. injection Ew as <-. apply reads_lower in Y. discriminate Y.
  - constructor; [|constructor]. split; [constructor; [exact I|constructor]|]. constructor; [|constructor].
    assert (S : strict_item lit_search (Group [One [] QStar] QOne)) by (split; [split; exact I|left; reflexivity]).
    assert (Eg : forall x, (1 <= nrefs lit_groups (x_items x))%nat -> e_good lit_groups x [92; 49]). { intros x L. exists [Ref [49]]. split; [constructor; [split; [discriminate|constructor; [lia|constructor]]|constructor]|]. split; [intros ([|? [|? ?]] & tt & Y); discriminate Y|]. split; [reflexivity|]. intros i [Y|[]]. injection Y as <-. change (decimal [49]) with 1. lia. }
    split; [constructor; [exact S|constructor]|]. split; [constructor; [exact S|constructor; [exact I|constructor; [exact I|constructor]]]|]. split; apply Eg; cbn; lia.
  - constructor; [|constructor]. constructor; [|constructor]. apply C63_definite. apply lit_plain.
Qed.
Example C63_ex_check : ck c_hier [] (pk [g [97]; g [98]] (key_name [g [97]] (g [1]))) = VContinue (Some (i_ofName true (key_name [g [97]] (g [1])))) /\
  ck c_hier [] (pk [g [97]; g [98]] (key_name [g [98]] (g [1]))) = VFail /\ ck c_hier [] (pk [g [98]; g [98]] (key_name [g [98]] (g [1]))) = VFail.
Proof. vm_compute. auto. Qed.
(** The hierarchical checker looks for the text KEY in a component: the key locator
    /a/MONKEY/1 is taken for a key of /a. *)
Theorem C63_key_component_refuted : ~ (forall t c acts p r, ld t = (c, acts, None) -> t = t_hier -> ck c [] p = VContinue (Some r) -> exists identity k, located p k /\ key_of identity k).
Proof.
  intros X. destruct (X t_hier _ _ (pk [g [97]; g [98]] [g [97]; g [77; 79; 78; 75; 69; 89]; g [1]]) (i_ofName true [g [97]; g [77; 79; 78; 75; 69; 89]; g [1]]) eq_refl eq_refl) as (i & k & L & _ & c & d & E & S); [vm_compute; reflexivity|].
  assert (Hk : k = [g [97]; g [77; 79; 78; 75; 69; 89]; g [1]]) by (eapply exloc; [|exact L]; reflexivity). rewrite Hk in E. apply (snoc2 [g [97]] i) in E. destruct E as (_ & <- & _). destruct S as [S _]. discriminate S.
Qed.
(** A checker with a name relation raises ValueError from validate if the key locator is not the
    name of a key, instead of refusing the packet. *)
Theorem C63_raises_refuted : ~ (forall t c acts p e, ld t = (c, acts, None) -> ck c [] p <> VRaise e).
Proof.
  intros X. apply (X (conf_of [r_custom [(w_name, leaf [47; 97]); (w_relation, leaf w_equal)]] []) _ _ (pk [g [97]; g [98]] [g [97]]) ValueError eq_refl). vm_compute. reflexivity.
Qed.
(** The answer can depend on earlier packets: with the p-regex "^<x>(<a>)?$" and p-expand "\1" the
    packet /x is refused, but accepted after /x/a. *)
Definition t_stale : tree := conf_of [r_custom [(w_hyper_relation, sec [(w_k_regex, leaf h_key); (w_k_expand, leaf h_expand); (w_h_relation, leaf w_equal); (w_p_regex, leaf [94; 60; 120; 62; 40; 60; 97; 62; 41; 63; 36]); (w_p_expand, leaf h_expand)])]] [].
Theorem C63_history_refuted : ~ (forall t c acts ps p, ld t = (c, acts, None) -> ck c ps p = ck c [] p).
Proof.
  intros X. specialize (X t_stale _ _ [pk [g [120]; g [97]] (key_name [g [97]] (g [1]))] (pk [g [120]] (key_name [g [97]] (g [1]))) eq_refl). vm_compute in X. discriminate X.
Qed.
(** A load that raises leaves what it has read so far: here everything is trusted after the error. *)
Theorem C64_atomic_refuted : ~ (forall t c acts e p, ld t = (c, acts, Some e) -> ck c [] p = ck c_new [] p).
Proof.
  intros X. specialize (X (conf_of [] [[(w_type, leaf w_any)]; [(w_type, leaf [120])]]) _ _ OtherError (pk [] []) eq_refl). vm_compute in X. discriminate X.
Qed.
(** a validator: the trust anchor of /a, a certificate of /a/b and a packet /a/b/x, as in C54 *)
Example C65_ex : w_log (conf_val lit_search (fun _ => repeat 0 32) (fun _ => Ok (0, 1000)) (fun _ _ => Ok true) (fun _ _ => None) (fun _ _ => Ok []) true true 25 c_hier (fun _ _ => []) exh) = [(0%nat, Success)] /\
  w_log (conf_val lit_search (fun _ => repeat 0 32) (fun _ => Ok (0, 1000)) (fun _ _ => Ok true) (fun _ _ => None) (fun _ _ => Ok []) true true 25 c_hier (fun _ _ => []) [EAnchor (TInsert 0 exa); EValidate 10 (pk [g [98]] (key_name [g [97]] (g [1])))]) = [(0%nat, Failure)].
Proof. vm_compute. auto. Qed.

Print Assumptions C64_load.
Print Assumptions C64_actions.
Print Assumptions C64_reload.
Print Assumptions C64_errors.
Print Assumptions C63_decision.
Print Assumptions C63_no_locator.
Print Assumptions C63_any.
Print Assumptions C63_sound.
Print Assumptions C63_hierarchical.
Print Assumptions C63_definite.
Print Assumptions C63_unique.
Print Assumptions C63_history.
Print Assumptions C65_chain.
Print Assumptions C65_hierarchical.
Print Assumptions C65_any.
Print Assumptions C63_key_component_refuted.
Print Assumptions C63_raises_refuted.
Print Assumptions C63_history_refuted.
Print Assumptions C64_atomic_refuted.
