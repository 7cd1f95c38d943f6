(** * C97: the KeyChain constructor with locators *)
From Verif Require Import Base BaseLemmas NameModel UriModel UriProofs DictModel WireModel HierModel PibModel FrontModel BagModel ChainModel SqlModel SqlSpec SqlTable SqlProofs SqlProps LocModel LocSpec LocProofs LocStep.

(** ** client.conf *)
Theorem C97_config : forall lines key default v, conf_get (conf_parse lines) key default = v <-> says lines key v \/ (silent lines key /\ v = default).
Proof.
  intros lines key default v. unfold conf_get, din. destruct (conf_says lines key) as [(v1 & S1 & G)|[Sl G]]; rewrite G.
  - split; [intros <-; auto|]. intros [S2|[Sl _]]; [symmetry; eapply says_fun; eassumption|]. destruct S1 as (l1 & l & l2 & -> & A & _). exfalso. apply (Sl l v1); [apply in_or_app; right; left; reflexivity|exact A].
  - split; [intros <-; auto|]. intros [(l1 & l & l2 & -> & A & _)|[_ ->]]; [|reflexivity]. exfalso. apply (Sl l v); [apply in_or_app; right; left; reflexivity|exact A].
Qed.
Lemma default_choice : forall var conf key scheme l, default_says var conf key scheme l <-> l = first_choice var conf key scheme.
Proof.
  intros var conf key scheme l. unfold default_says, first_choice. destruct var as [[|c s]|].
  - rewrite <- C97_config. split; [intros [(v & E & N & _)|[_ E]]; [congruence|auto]|]. intros ->. right. auto.
  - split; [intros [(v & E & N & ->)|[[E|E] _]]; congruence|]. intros ->. left. exists (c :: s). split; [reflexivity|]. split; [discriminate|reflexivity].
  - rewrite <- C97_config. split; [intros [(v & E & N & _)|[_ E]]; [congruence|auto]|]. intros ->. right. auto.
Qed.
(** ** Locators: "scheme:location", where ":location" and the scheme may be omitted; the form with both is a fixed point *)
Theorem C97_locator : forall s l, ~ In 58 s -> parse_locator (s ++ 58 :: l) = (s, l) /\ parse_locator s = (s, []) /\
  forall u sl, (check_pib u = inl sl -> check_pib (canonical sl) = inl sl) /\ (check_tpm u = inl sl -> check_tpm (canonical sl) = inl sl).
Proof.
  intros s l N. split; [exact (parse_canonical s l N)|]. split; [|intros u sl; split; [apply pib_canonical|apply tpm_canonical]].
  unfold parse_locator. destruct (find_idx 58 s) as [i|] eqn:F; [|reflexivity]. exfalso. apply N. destruct (find_first _ _ _ F) as [E _]. rewrite E. apply in_or_app. right. left. reflexivity.
Qed.

Section Loc.
Variable dir : str.
Notation k_init := (k_init dir).
Notation k_init0 := (k_init0 dir).
Notation place_of := (place_of dir).
Notation ev_run := (ev_run dir).
Notation ev_step := (ev_step dir).
(** The file that is at the path before *)
Definition before (w : world) (p : str) (d : db) : Prop := w_files w p = Some d \/ (w_files w p = None /\ d = db_new).
Lemma before_old : forall w p d sl, before w p d -> place_of sl = InFile p -> old_db dir sl w = d.
Proof. intros w p d sl B E. unfold old_db. rewrite E. unfold db_at. destruct B as [->|[-> ->]]; reflexivity. Qed.
Lemma pset_loc : forall T d, unreset d -> T <> [] -> loc (pset T d) = T /\ unreset (pset T d).
Proof.
  intros T d U N. unfold pset. destruct (zle_cases T (loc d)) as [[E B]|[Ne B]]; rewrite B; [auto|]. unfold with_tpm, loc, unreset, set_rows in *. cbn [b_tpm] in *. destruct (b_tpm d) as [|[|c x] r] eqn:Eb.
  - split; [reflexivity|]. intros [K|[]]. congruence.
  - exfalso. apply U. left. reflexivity.
  - split; [reflexivity|]. intros I. apply in_map_iff in I. destruct I as (y & K & _). congruence.
Qed.
Lemma canonical_ne : forall sl, canonical sl <> []. Proof. intros [s l]. unfold canonical. cbn. destruct s; discriminate. Qed.
Lemma pset_rst : forall T d, linked d -> T <> [] -> erased (pset T (rst d)) /\ loc (pset T (rst d)) = [].
Proof.
  intros T d L N. split. { destruct (pset_same T (rst d)) as (A & B & C). destruct (rst_erased d L) as (A' & B' & C'). repeat split; congruence. }
  unfold pset. rewrite rst_loc, zle_neq by exact N. unfold rst, loc, with_tpm, set_rows. cbn [b_tpm]. destruct (b_tpm d) as [|[|c x] r]; reflexivity.
Qed.
Lemma outcome_fun : forall e w e2 w2 sl tl tl2 allow d d1 r1 d2 r2, okp e w = true -> okt e w = true -> okp e2 w2 = true -> okt e2 w2 = true -> dpib e2 w2 = dpib e w -> dtpm e2 w2 = dtpm e w ->
  match tl, tl2 with Some t, Some t2 => check_tpm t = check_tpm t2 | None, None => True | _, _ => False end ->
  outcome dir e w sl tl allow d d1 r1 -> outcome dir e2 w2 sl tl2 allow d d2 r2 -> d2 = d1 /\ r2 = r1.
Proof.
  intros e w e2 w2 sl tl tl2 allow d d1 r1 d2 r2 K1 K2 K3 K4 Dp Dt Ct O1 O2. inversion O1; subst; inversion O2; subst; rewrite ?Dp, ?Dt in *; cbn [check_tpm] in *;
  try (match goal with H : _ \/ _ = false |- _ => idtac end); 
  repeat match goal with H : Some _ = None |- _ => discriminate H | H : None = Some _ |- _ => discriminate H | H : False |- _ => destruct H | H : Some _ = Some _ |- _ => injection H as H; subst end;
  try (split; reflexivity); try (exfalso; congruence); try (exfalso; intuition congruence);
  try (repeat match goal with A : check_tpm ?t = inl ?a, B : check_tpm ?u = inl ?b |- _ => assert (a = b) by congruence; subst b; clear B end; split; congruence).
Qed.

(** Two calls that find the same locators do the same *)
Lemma init_same : forall e w pl tl e2 w2 pl2 tl2 allow sl, okp e w = true -> okt e w = true -> okp e2 w2 = true -> okt e2 w2 = true -> dpib e2 w2 = dpib e w -> dtpm e2 w2 = dtpm e w -> w_files w2 = w_files w ->
  check_pib (the_pib e w pl) = sl -> check_pib (the_pib e2 w2 pl2) = sl ->
  match the_tpm e w tl, the_tpm e2 w2 tl2 with Some t, Some t2 => check_tpm t = check_tpm t2 | None, None => True | _, _ => False end ->
  snd (k_init e pl tl allow w) = snd (k_init e2 pl2 tl2 allow w2) /\ forall q, w_files (fst (k_init e pl tl allow w)) q = w_files (fst (k_init e2 pl2 tl2 allow w2)) q.
Proof.
  intros e w pl tl e2 w2 pl2 tl2 allow sl K1 K2 K3 K4 Dp Dt Fw C1 C2 Ct. destruct (k_init e pl tl allow w) as [w' r] eqn:E1. destruct (k_init e2 pl2 tl2 allow w2) as [w2' r2] eqn:E2. cbn [fst snd].
  destruct (init_cases _ _ _ _ _ _ _ _ E1) as [_ X1]. destruct (init_cases _ _ _ _ _ _ _ _ E2) as [_ X2].
  destruct X1 as [(F1 & -> & [B|[B|B]])|(s1 & d1 & A1 & (a1 & b1 & R1) & O1)]; try congruence; destruct X2 as [(F2 & -> & [B2|[B2|B2]])|(s2 & d2 & A2 & (a2 & b2 & R2) & O2)]; try congruence.
  - split; [reflexivity|]. intros q. congruence.
  - assert (s2 = s1) by congruence. subst s2. assert (Eo : old_db dir s1 w2 = old_db dir s1 w) by (unfold old_db, db_at; rewrite Fw; reflexivity). rewrite Eo in O2.
    destruct (outcome_fun _ _ _ _ _ _ _ _ _ _ _ _ _ K1 K2 K3 K4 Dp Dt Ct O1 O2) as [-> ->]. split; [reflexivity|]. intros q. destruct R1 as (_ & _ & _ & N1 & S1). destruct R2 as (_ & _ & _ & N2 & S2).
    assert (Dec : InFile q = place_of s1 \/ InFile q <> place_of s1). { destruct (place_of s1) as [x|]; [|right; discriminate]. destruct (list_eq_dec Z.eq_dec q x) as [->|Nx]; [left; reflexivity|right; congruence]. }
    destruct Dec as [Q|Q]; [rewrite (S1 q Q), (S2 q Q); reflexivity|rewrite (N1 q Q), (N2 q Q), Fw; reflexivity].
Qed.
(** ** The default locators *)
(** In a new process, KeyChain("", "") is KeyChain with the locators that the environment, client.conf
    and the platform determine. *)
Theorem C97_default : forall e w allow lp lt sp st,
  w_pibdef w = None -> w_tpmdef w = None -> default_says (e_pib e) (e_conf e) s_pib s_sqlite lp -> default_says (e_tpm e) (e_conf e) s_tpm s_file lt ->
  check_pib lp = inl sp -> check_tpm lt = inl st ->
  snd (k_init e [] (Some []) allow w) = snd (k_init e lp (Some lt) allow w) /\ forall q, w_files (fst (k_init e [] (Some []) allow w)) q = w_files (fst (k_init e lp (Some lt) allow w)) q.
Proof.
  intros e w allow lp lt sp st Np Nt Hp Ht Cp Ct. apply default_choice in Hp. apply default_choice in Ht. subst lp lt.
  assert (Dp : dpib e w = canonical sp) by (unfold dpib, resolve_pib; rewrite Np; cbv zeta; rewrite Cp; reflexivity). assert (Dt : dtpm e w = canonical st) by (unfold dtpm, resolve_tpm; rewrite Nt; cbv zeta; rewrite Ct; reflexivity).
  assert (K1 : okp e w = true) by (unfold okp; rewrite Np, Cp; reflexivity). assert (K2 : okt e w = true) by (unfold okt; rewrite Nt, Ct; reflexivity).
  pose proof (pib_canonical _ _ Cp) as Cp2. pose proof (tpm_canonical _ _ Ct) as Ct2.
  apply (init_same _ _ _ _ _ _ _ _ _ (inl sp)); auto.
  - cbn. rewrite Dp. exact Cp2.
  - unfold the_pib. destruct (emptyb _); [rewrite Dp; exact Cp2|exact Cp].
  - cbn [the_tpm]. rewrite Dt. destruct (first_choice (e_tpm e) _ _ _) as [|c t] eqn:Ef; [rewrite Ct2; reflexivity|]. unfold the_tpm. rewrite Ct2, <- Ct. reflexivity.
Qed.
(** Once a process has its default locators, changes of the environment and of client.conf have no effect on it. *)
Theorem C97_once : forall w e e2 pl tl allow, w_pibdef w <> None -> w_tpmdef w <> None ->
  snd (k_init e pl tl allow w) = snd (k_init e2 pl tl allow w) /\ (forall q, w_files (fst (k_init e pl tl allow w)) q = w_files (fst (k_init e2 pl tl allow w)) q) /\
  w_pibdef (fst (k_init e pl tl allow w)) = w_pibdef w /\ w_tpmdef (fst (k_init e pl tl allow w)) = w_tpmdef w.
Proof.
  intros w e e2 pl tl allow Np Nt. destruct (w_pibdef w) as [D|] eqn:Ep; [|congruence]. destruct (w_tpmdef w) as [T|] eqn:Et; [|congruence].
  assert (A : forall x, okp x w = true /\ okt x w = true /\ dpib x w = D /\ dtpm x w = T). { intros x. unfold okp, okt, dpib, dtpm. rewrite Ep, Et. auto. }
  destruct (A e) as (K1 & K2 & Dp & Dt). destruct (A e2) as (K3 & K4 & Dp2 & Dt2).
  destruct (init_same e w pl tl e2 w pl tl allow (check_pib (the_pib e w pl))) as [X Y]; auto; try congruence.
  - unfold the_pib. rewrite Dp, Dp2. reflexivity.
  - unfold the_tpm. rewrite Dt, Dt2. destruct tl as [[|c t]|]; reflexivity || exact Logic.I.
  - split; [exact X|]. split; [exact Y|]. destruct (k_init e pl tl allow w) as [w' r] eqn:E1. destruct (init_cases _ _ _ _ _ _ _ _ E1) as [[C1 C2] _]. cbn [fst]. rewrite Dp, Ep in C1. rewrite Dt, Et in C2. split; tauto.
Qed.
(** A default locator of a process does not change, whatever happens. *)
Theorem C97_fixed : forall e w pl tl allow,
  (forall D, w_pibdef w = Some D -> w_pibdef (fst (k_init e pl tl allow w)) = Some D) /\ (forall T, w_tpmdef w = Some T -> w_tpmdef (fst (k_init e pl tl allow w)) = Some T).
Proof.
  intros e w pl tl allow. destruct (k_init e pl tl allow w) as [w' r] eqn:H. cbn [fst]. destruct (init_cases _ _ _ _ _ _ _ _ H) as [[C1 C2] _]. split.
  - intros D E. unfold dpib in C1. rewrite E in C1. tauto.
  - intros T E. unfold dtpm in C2. rewrite E in C2. tauto.
Qed.

(** ** What happens with the file *)
(** [u] is the locator that is meant: "" is the default *)
Definition meant (given default u : str) : Prop := (given <> [] /\ u = given) \/ (given = [] /\ u = default).
Lemma meant_pib : forall e w pl D u, dpib e w = D -> meant pl D u -> the_pib e w pl = u.
Proof. intros e w pl D u E [[N ->]|[-> ->]]; unfold the_pib; [destruct pl; [congruence|reflexivity]|exact E]. Qed.
Lemma meant_tpm : forall e w tl D u, dtpm e w = D -> meant tl D u -> the_tpm e w (Some tl) = Some u.
Proof. intros e w pl D u E [[N ->]|[-> ->]]; unfold the_tpm; [destruct pl; [congruence|reflexivity]|congruence]. Qed.
Theorem C97_exact : forall e w D DT sdt pl tl allow u sl t ts p d x,
  w_pibdef w = Some D -> w_tpmdef w = Some DT -> check_tpm DT = inl sdt -> canonical sdt = DT ->
  meant pl D u -> check_pib u = inl sl -> place_of sl = InFile p -> meant tl DT t -> check_tpm t = inl ts ->
  before w p d -> linked d -> stored d x ->
  let (w', r) := k_init e pl (Some tl) allow w in
  exists d', w_files w' p = Some d' /\ fulfills (judge (zlist_eqb (canonical sl) D) x (canonical ts) DT allow) p (canonical ts) d d' r /\
  forall q, q <> p -> w_files w' q = w_files w q.
Proof.
  intros e w D DT sdt pl tl allow u sl t ts p d x Ep Et Cd Cc Mp Cp Pl Mt Ct B L S. destruct (k_init e pl (Some tl) allow w) as [w' r] eqn:E. apply stored_loc in S.
  assert (K : okp e w = true /\ okt e w = true /\ dpib e w = D /\ dtpm e w = DT). { unfold okp, okt, dpib, dtpm. rewrite Ep, Et. auto. } destruct K as (K1 & K2 & Dp & Dt).
  destruct (init_cases _ _ _ _ _ _ _ _ E) as [_ X]. rewrite (meant_pib _ _ _ _ _ Dp Mp), Cp, (meant_tpm _ _ _ _ _ Dt Mt) in X.
  destruct X as [(_ & _ & [X|[X|X]])|(s1 & d' & Es & (a & b & HR) & O)]; try congruence. injection Es as <-. rewrite (before_old _ _ _ _ B Pl) in O.
  destruct HR as (_ & _ & _ & N & Sm). exists d'. split; [apply Sm; congruence|]. split; [|intros q Q; apply N; congruence].
  assert (Nx : forall y, y <> [] -> zlist_eqb y [] = false) by (intros; apply zle_neq; assumption).
  inversion O as [|t1 T1 T2|Q|t1 ts1 T1 T2 Q|t1 ts1 T1 T2 Q1 Q2 Q3 Q4|t1 ts1 T1 T2 Q1 Q2 Q3 Q4|t1 ts1 s2 T1 T2 Q1 Q2 Q3 Q4|t1 ts1 T1 T2 Q1 Q2 Q3 Q4]; subst; try congruence; try (destruct Q; congruence); try (injection T1 as <-); try (rewrite Ct in T2; injection T2 as <-); unfold judge; rewrite ?Dp, ?Dt in *.
  - rewrite Pl. destruct Q as [->|[[Q Q']|[Q Q']]]; [cbn; split; [reflexivity|apply pset_same]| |]; (destruct (zlist_eqb (loc d) []); [split; [reflexivity|apply pset_same]|]).
    + rewrite Q, zle_refl, Q', zle_refl. split; [reflexivity|apply pset_same].
    + rewrite (zle_neq _ _ Q), Q', zle_refl. split; [reflexivity|apply pset_same].
  - rewrite Pl, (Nx _ Q1), (zle_neq _ _ Q2), (zle_neq _ _ Q3). split; [reflexivity|]. apply pset_rst; [exact L|apply canonical_ne].
  - rewrite (Nx _ Q1), (zle_neq _ _ Q2), (zle_neq _ _ Q3). split; reflexivity.
  - rewrite Pl, (Nx _ Q1), Q2, zle_refl, (zle_neq _ _ Q3). rewrite Cd in Q4. injection Q4 as <-. split; [reflexivity|]. apply pset_rst; [exact L|apply canonical_ne].
Qed.

(** The default locators that the process has, or finds when it looks for them *)
Definition default_pib (e : env) (w : world) (D : str) : Prop :=
  w_pibdef w = Some D \/ (w_pibdef w = None /\ exists l sl, default_says (e_pib e) (e_conf e) s_pib s_sqlite l /\ check_pib l = inl sl /\ D = canonical sl).
Definition default_tpm (e : env) (w : world) (D : str) : Prop :=
  w_tpmdef w = Some D \/ (w_tpmdef w = None /\ exists l, default_says (e_tpm e) (e_conf e) s_tpm s_file l /\ forall sl, check_tpm l = inl sl -> D = canonical sl).
Lemma is_default_pib : forall e w sl, check_pib (canonical sl) = inl sl -> canonical sl = dpib e w -> default_pib e w (canonical sl).
Proof.
  intros e w sl C E. unfold default_pib, dpib in *. destruct (w_pibdef w) as [D|]; [left; congruence|]. right. split; [reflexivity|]. unfold resolve_pib in E. cbv zeta in E.
  exists (first_choice (e_pib e) (e_conf e) s_pib s_sqlite). destruct (check_pib (first_choice _ _ _ _)) as [s2|x] eqn:C2.
  - exists s2. split; [apply default_choice; reflexivity|]. auto.
  - rewrite <- E, C in C2. discriminate C2.
Qed.
Lemma is_default_tpm : forall e w, default_tpm e w (dtpm e w).
Proof.
  intros e w. unfold default_tpm, dtpm. destruct (w_tpmdef w) as [D|]; [left; reflexivity|]. right. split; [reflexivity|]. exists (first_choice (e_tpm e) (e_conf e) s_tpm s_file). split; [apply default_choice; reflexivity|]. intros sl C. unfold resolve_tpm. cbv zeta. rewrite C. reflexivity.
Qed.
Lemma place_dec : forall (pl : place) q, InFile q = pl \/ InFile q <> pl.
Proof. intros [x|] q; [|right; discriminate]. destruct (list_eq_dec Z.eq_dec q x) as [->|N]; [left; reflexivity|right; congruence]. Qed.
(** The constructor erases a PIB only if the PIB has another TPM locator, and either this was allowed or it is the default PIB. *)
Theorem C97_never_lost : forall e pl tl allow w w' r p d, k_init e pl tl allow w = (w', r) -> w_files w p = Some d -> linked d ->
  exists d', w_files w' p = Some d' /\ (same_content d d' \/
    (erased d' /\ exists x, stored d x /\ x <> [] /\
      ((allow = true /\ exists T, r = inl (KC (InFile p) T) /\ T <> x) \/
       (exists sl DT, default_pib e w (canonical sl) /\ place_of sl = InFile p /\ default_tpm e w DT /\ DT <> x)))).
Proof.
  intros e pl tl allow w w' r p d H Ef L. destruct (init_cases _ _ _ _ _ _ _ _ H) as [_ X]. destruct X as [(F & _)|(sl & d' & Cp & (a & b & HR) & O)].
  { exists d. split; [rewrite F; exact Ef|]. left. apply same_refl. }
  destruct HR as (_ & _ & _ & N & Sm). destruct (place_dec (place_of sl) p) as [Q|Q].
  2:{ exists d. split; [rewrite (N p Q); exact Ef|]. left. apply same_refl. }
  exists d'. split; [apply Sm, Q|]. rewrite (before_old _ _ d _ (or_introl Ef) (eq_sym Q)) in O.
  inversion O as [|t1 T1 T2|K|t1 ts1 T1 T2 K|t1 ts1 T1 T2 Q1 Q2 Q3 Q4|t1 ts1 T1 T2 Q1 Q2 Q3 Q4|t1 ts1 s2 T1 T2 Q1 Q2 Q3 Q4|t1 ts1 T1 T2 Q1 Q2 Q3 Q4]; subst; try (left; apply same_refl).
  - left. apply pset_same.
  - right. split; [apply pset_rst; [exact L|apply canonical_ne]|]. exists (loc d). split; [apply stored_loc; reflexivity|]. split; [exact Q1|]. left. split; [reflexivity|]. exists (canonical ts1). rewrite <- Q. split; [reflexivity|congruence].
  - right. split; [|exists (loc d); split; [apply stored_loc; reflexivity|]; split; [exact Q1|]; right; exists sl, (dtpm e w); split; [apply is_default_pib; [eapply pib_canonical, Cp|exact Q2]|]; split; [congruence|]; split; [apply is_default_tpm|congruence]].
    destruct (pset_same (dtpm e w) (rst d)) as (A & B & C). destruct (rst_erased d L) as (A' & B' & C'). repeat split; congruence.
  - right. split; [apply rst_erased, L|]. exists (loc d). split; [apply stored_loc; reflexivity|]. split; [exact Q1|]. right. exists sl, (dtpm e w). split; [apply is_default_pib; [eapply pib_canonical, Cp|exact Q2]|]. split; [congruence|]. split; [apply is_default_tpm|congruence].
Qed.
(** A constructor that raises leaves all files as they were, if the default TPM locator of the process is a supported one
    (otherwise: C97_bad_default_refuted). *)
Theorem C97_error : forall e pl tl allow w w' x p d, k_init e pl tl allow w = (w', inr x) -> w_files w p = Some d ->
  (forall DT, default_tpm e w DT -> exists sl, check_tpm DT = inl sl) -> w_files w' p = Some d.
Proof.
  intros e pl tl allow w w' x p d H Ef HD. destruct (init_cases _ _ _ _ _ _ _ _ H) as [_ X]. destruct X as [(F & _)|(sl & d' & Cp & (a & b & HR) & O)]; [congruence|].
  destruct HR as (_ & _ & _ & N & Sm). destruct (place_dec (place_of sl) p) as [Q|Q]; [|rewrite (N p Q); exact Ef]. rewrite (Sm p Q). rewrite (before_old _ _ d _ (or_introl Ef) (eq_sym Q)) in O. destruct (HD _ (is_default_tpm e w)) as [sd Ed].
  inversion O; subst; try reflexivity. congruence.
Qed.
(** After a constructor that succeeds, the TPM of the KeyChain is the one that the PIB records - unless the PIB was reset
    (C97_recorded_refuted). *)
Theorem C97_recorded : forall e pl tl allow w w' p T d, k_init e pl tl allow w = (w', inl (KC (InFile p) T)) -> before w p d -> unreset d -> linked d ->
  (forall DT, default_tpm e w DT -> exists sl, check_tpm DT = inl sl /\ canonical sl = DT) ->
  exists d', w_files w' p = Some d' /\ ((same_content d d' /\ stored d' T /\ unreset d') \/ (erased d' /\ stored d' [] /\ exists x, stored d x /\ x <> [] /\ x <> T)).
Proof.
  intros e pl tl allow w w' p T d H B U L HD. destruct (init_cases _ _ _ _ _ _ _ _ H) as [_ X]. destruct X as [(F & K & _)|(sl & d' & Cp & (a & b & HR) & O)]; [discriminate K|].
  destruct HR as (_ & _ & _ & N & Sm). assert (Q : InFile p = place_of sl) by (inversion O; congruence). exists d'. split; [apply Sm, Q|]. rewrite (before_old _ _ d _ B (eq_sym Q)) in O. destruct (HD _ (is_default_tpm e w)) as (sd & Ed & Ec).
  inversion O as [| | |t1 ts1 T1 T2 K|t1 ts1 T1 T2 Q1 Q2 Q3 Q4| |t1 ts1 s2 T1 T2 Q1 Q2 Q3 Q4|]; subst.
  - left. split; [apply pset_same|]. destruct (pset_loc (canonical ts1) d U (canonical_ne _)) as [P1 P2]. split; [apply stored_loc; congruence|exact P2].
  - right. destruct (pset_rst (canonical ts1) d L (canonical_ne _)) as [P1 P2]. split; [exact P1|]. split; [apply stored_loc; congruence|]. exists (loc d). split; [apply stored_loc; reflexivity|auto].
  - right. rewrite Ed in Q4. injection Q4 as ->. assert (Nd : dtpm e w <> []) by (rewrite <- Ec; apply canonical_ne). destruct (pset_rst (dtpm e w) d L Nd) as [P1 P2]. split; [exact P1|]. split; [apply stored_loc; congruence|]. exists (loc d). split; [apply stored_loc; reflexivity|]. split; [exact Q1|congruence].
Qed.

(** ** Histories *)
(** the calls of the PIB do not depend on the TPM locator *)
Inductive blind {A} : prog A -> Prop :=
  | BDone : forall r, blind (Done r)
  | BAsk : forall q k, q <> QTpm -> (forall rows, blind (k rows)) -> blind (Ask q k)
  | BRun : forall u k, match u with UInsertTpm _ | USetTpm _ => False | _ => True end -> blind k -> blind (Run u k).
Lemma blind_bind : forall A B (p : prog A) (f : A -> prog B), blind p -> (forall a, blind (f a)) -> blind (pbind p f).
Proof. intros A B p f H F. induction H; cbn [pbind]; [destruct r; [apply F|constructor]|constructor; auto|constructor; auto]. Qed.
Ltac bl := repeat match goal with
  | |- blind (pbind _ _) => apply blind_bind; [|intros ?]
  | |- blind (Done _) => constructor
  | |- blind (give _) => constructor
  | |- blind (stop _) => constructor
  | |- blind (plift _) => constructor
  | |- blind (some_row _) => constructor; [discriminate|intros ?; constructor]
  | |- blind (do _) => constructor; [exact Logic.I|constructor]
  | |- blind (if ?b then _ else _) => destruct b
  end.
Lemma blind_call : forall o, blind (p_call o).
Proof. intros o. destruct o; cbn [p_call]; unfold p_addCertificate, p_addKey, p_addIdentity, p_setDefaultIdentity, p_setDefaultKey, p_setDefaultCert, p_hasIdentity, p_hasDefaultIdentity, p_hasKey, p_hasDefaultKey, p_hasCertificate, p_hasDefaultCert, p_removeIdentity, p_clearIdentities, p_removeKey, p_removeCertificate; bl. Qed.
Lemma same_read : forall q d d', q <> QTpm -> same_content d d' -> read q d' = read q d.
Proof. intros q [t i k c] [t' i' k' c'] N (E1 & E2 & E3). cbn in E1, E2, E3. subst. destruct q; try reflexivity. congruence. Qed.
Lemma same_write : forall u d d', match u with UInsertTpm _ | USetTpm _ => False | _ => True end -> same_content d d' ->
  match write u d, write u d' with Some a, Some b => same_content a b | None, None => True | _, _ => False end.
Proof.
  intros u [t i k c] [t' i' k' c'] N (E1 & E2 & E3). cbn in E1, E2, E3. subst. destruct u; try destruct N; cbn [write b_ids b_keys b_certs w_ids w_keys w_certs]; repeat match goal with |- context [t_id ?a ?b] => destruct (t_id a b) | |- context [t_insert ?a ?b ?x ?y] => destruct (t_insert a b x y) end; try exact Logic.I; (split; [|split]; reflexivity).
Qed.
Lemma same_perform : forall A (p : prog A), blind p -> forall d d', same_content d d' -> same_content (fst (perform p d)) (fst (perform p d')).
Proof.
  intros A p H. induction H as [r|q k N H IH|u k N H IH]; intros d d' Sm; cbn [perform]; [exact Sm|rewrite (same_read q d d' N Sm); apply IH, Sm|].
  pose proof (same_write u d d' N Sm) as W. destruct (write u d), (write u d'); try contradiction; [apply IH, W|exact Sm].
Qed.
Lemma call_tpm : forall o d, b_tpm (fst (perform (p_call o) d)) = b_tpm d.
Proof. intros o d. apply no_tpm_perform, no_tpm_call. Qed.
Lemma s_run_snoc : forall h o d, s_run (h ++ [o]) d = fst (perform (p_call o) (s_run h d)). Proof. apply run_snoc. Qed.
Lemma ev_snoc : forall h ev w, ev_run (h ++ [ev]) w = ev_step (ev_run h w) ev. Proof. intros. unfold LocModel.ev_run. rewrite fold_left_app. reflexivity. Qed.
Lemma uses_snoc : forall p h ev, uses p (h ++ [ev]) = uses p h ++ (match ev with Use q o => if zlist_eqb q p then [o] else [] | _ => [] end).
Proof. intros. unfold uses. rewrite flat_map_app. cbn. rewrite app_nil_r. reflexivity. Qed.
(** A rule for histories: [I] is about the class variables, [K] is about the TPM locator; a constructor that keeps them also keeps the content *)
Lemma history : forall (I : world -> Prop) (K : db -> Prop) (ok : env -> str -> option str -> bool -> Prop) p,
  (forall w, I (World None None (w_files w) db_new)) ->
  (forall w f, I w -> I (World (w_pibdef w) (w_tpmdef w) f (w_mem w))) ->
  (forall d d', loc d' = loc d -> K d -> K d') ->
  (forall e pl tl allow w w' r d, ok e pl tl allow -> I w -> w_files w p = Some d -> K d -> k_init e pl tl allow w = (w', r) -> I w' /\ exists d', w_files w' p = Some d' /\ K d' /\ same_content d d') ->
  forall h w d, (forall ev, In ev h -> match ev with New e pl tl allow => ok e pl tl allow | New0 e _ => ok e [] (Some []) false | _ => True end) ->
  I w -> w_files w p = Some d -> K d ->
  I (ev_run h w) /\ exists d', w_files (ev_run h w) p = Some d' /\ K d' /\ same_content (s_run (uses p h) d) d'.
Proof.
  intros I K ok p I0 If Kl St h w d. induction h as [|ev h IH] using rev_ind; intros Hh Hi Ef Hk.
  { split; [exact Hi|]. exists d. split; [exact Ef|]. split; [exact Hk|apply same_refl]. }
  destruct (IH (fun x Ix => Hh x (in_or_app _ _ _ (or_introl Ix))) Hi Ef Hk) as [I1 (d1 & E1 & K1 & S1)]. rewrite ev_snoc, uses_snoc. assert (Iev : In ev (h ++ [ev])) by (apply in_or_app; right; left; reflexivity). specialize (Hh ev Iev). clear Iev. clear IH. set (v := ev_run h w) in *. clearbody v.
  destruct ev as [e pl tl allow|e v1|q o|]; cbn [LocModel.ev_step]; rewrite ?app_nil_r.
  - destruct (k_init e pl tl allow v) as [w' r] eqn:E. destruct (St _ _ _ _ _ _ _ _ Hh I1 E1 K1 E) as [I2 (d2 & E2 & K2 & S2)]. cbn [fst]. split; [exact I2|]. exists d2. split; [exact E2|]. split; [exact K2|]. eapply same_trans; eassumption.
  - unfold LocModel.k_init0. destruct (v1 && _). { cbn [fst]. split; [exact I1|]. exists d1. auto. }
    destruct (k_init e [] (Some []) false v) as [w' r] eqn:E. destruct (St _ _ _ _ _ _ _ _ Hh I1 E1 K1 E) as [I2 (d2 & E2 & K2 & S2)]. cbn [fst]. split; [exact I2|]. exists d2. split; [exact E2|]. split; [exact K2|]. eapply same_trans; eassumption.
  - destruct (zle_cases q p) as [[-> B]|[N B]]; rewrite B.
    + rewrite E1. split; [apply (If v), I1|]. eexists. split; [apply put_same|]. split; [eapply Kl; [|exact K1]; unfold loc; rewrite call_tpm; reflexivity|]. rewrite s_run_snoc. apply same_perform; [apply blind_call|exact S1].
    + rewrite app_nil_r. destruct (w_files v q) as [dq|]; [|split; [exact I1|]; exists d1; auto]. split; [apply (If v), I1|]. exists d1. split; [cbn; rewrite put_other by congruence; exact E1|]. auto.
  - split; [apply I0|]. exists d1. auto.
Qed.
(** The default PIB of the environment is not in the file at p *)
Definition elsewhere (e : env) (p : str) : Prop := forall l sl, default_says (e_pib e) (e_conf e) s_pib s_sqlite l -> check_pib l = inl sl -> place_of sl <> InFile p.
Definition cache_elsewhere (p : str) (w : world) : Prop := forall l sl, w_pibdef w = Some l -> check_pib l = inl sl -> place_of sl <> InFile p.
Lemma not_default : forall e w p sl, elsewhere e p -> cache_elsewhere p w -> check_pib (canonical sl) = inl sl -> place_of sl = InFile p -> canonical sl <> dpib e w.
Proof.
  intros e w p sl He Hw C Pl E. destruct (is_default_pib e w sl C E) as [Q|(Q & l & s2 & A & B & G)]; [exact (Hw _ _ Q C Pl)|]. assert (s2 = sl). { pose proof (pib_canonical _ _ B). congruence. } subst. exact (He _ _ A B Pl).
Qed.
Lemma caches_elsewhere : forall e w w' p, elsewhere e p -> cache_elsewhere p w -> caches e w w' -> cache_elsewhere p w'.
Proof.
  intros e w w' p He Hw [[C|C] _] l sl E Ck Pl; rewrite C in E; [|exact (Hw _ _ E Ck Pl)]. injection E as <-. unfold dpib in Ck. destruct (w_pibdef w) as [l|] eqn:Ew; [exact (Hw _ _ Ew Ck Pl)|].
  unfold resolve_pib in Ck. cbv zeta in Ck. destruct (check_pib (first_choice _ _ _ _)) as [s2|x] eqn:C2; [|congruence]. rewrite (pib_canonical _ _ C2) in Ck. injection Ck as ->. refine (He _ _ _ C2 Pl). apply default_choice. reflexivity.
Qed.
(** A PIB that is not the default one, without allowReset: whatever KeyChains are made in whatever
    processes and environments, nothing is lost, the TPM locator that the PIB has stays, and no
    KeyChain on it uses another TPM. *)
Theorem C97_history : forall h w p d,
  (forall ev, In ev h -> match ev with New e _ _ allow => allow = false /\ elsewhere e p | New0 e _ => elsewhere e p | _ => True end) ->
  w_pibdef w = None -> w_files w p = Some d ->
  exists d', w_files (ev_run h w) p = Some d' /\ same_content (s_run (uses p h) d) d' /\
    forall x, stored d x -> x <> [] -> stored d' x /\
      forall e pl tl w2 T, elsewhere e p -> k_init e pl tl false (ev_run h w) = (w2, inl (KC (InFile p) T)) -> T = x.
Proof.
  intros h w p d Hh Hw Ef.
  assert (Step : forall e pl tl allow w w' r d0, (allow = false /\ elsewhere e p) -> cache_elsewhere p w -> w_files w p = Some d0 -> k_init e pl tl allow w = (w', r) -> cache_elsewhere p w' /\ exists d', w_files w' p = Some d' /\ same_content d0 d' /\ (loc d0 <> [] -> d' = d0 /\ forall T, r = inl (KC (InFile p) T) -> T = loc d0)).
  { clear. intros e pl tl allow w w' r d [-> He] Hw Ef H. destruct (init_cases _ _ _ _ _ _ _ _ H) as [Cs X]. split; [eapply caches_elsewhere; eassumption|]. destruct X as [(F & -> & _)|(sl & d' & Cp & (a & b & HR) & O)].
    { exists d. split; [congruence|]. split; [apply same_refl|]. intros _. split; [reflexivity|discriminate]. }
    destruct HR as (_ & _ & _ & N & Sm). destruct (place_dec (place_of sl) p) as [Q|Q].
    2:{ exists d. split; [rewrite (N p Q); exact Ef|]. split; [apply same_refl|]. intros _. split; [reflexivity|]. intros T E. exfalso. inversion O; congruence. }
    exists d'. split; [apply Sm, Q|]. rewrite (before_old _ _ d _ (or_introl Ef) (eq_sym Q)) in O. pose proof (not_default e w p sl He Hw (pib_canonical _ _ Cp) (eq_sym Q)) as ND.
    inversion O as [|t1 T1 T2|K|t1 ts1 T1 T2 K|t1 ts1 T1 T2 Q1 Q2 Q3 Q4|t1 ts1 T1 T2 Q1 Q2 Q3 Q4|t1 ts1 s2 T1 T2 Q1 Q2 Q3 Q4|t1 ts1 T1 T2 Q1 Q2 Q3 Q4]; subst; try congruence; try (split; [apply same_refl|intros _; split; [reflexivity|discriminate]]).
    split; [apply pset_same|]. intros NL. assert (E : loc d = canonical ts1) by (destruct K as [K|[[K _]|[_ K]]]; congruence). unfold pset. rewrite E, zle_refl. split; [reflexivity|]. intros T ET. congruence. }
  assert (Hw' : cache_elsewhere p w) by (intros l sl E; congruence).
  assert (HK : forall x, (x = [] \/ loc d = x) -> cache_elsewhere p (ev_run h w) /\ exists d', w_files (ev_run h w) p = Some d' /\ (x <> [] -> loc d' = x) /\ same_content (s_run (uses p h) d) d').
  { intros x Hx. apply (history (cache_elsewhere p) (fun d => x <> [] -> loc d = x) (fun e _ _ allow => allow = false /\ elsewhere e p) p); auto.
    - intros w0 l sl E. discriminate E.
    - intros d1 d2 El Hd Nx. rewrite El. auto.
    - intros e pl tl allow w1 w2 r d1 Hok Hi E1 K1 E. destruct (Step _ _ _ _ _ _ _ _ Hok Hi E1 E) as [I2 (d2 & A & B & C)]. split; [exact I2|]. exists d2. split; [exact A|]. split; [|exact B]. intros Nx. destruct C as [-> _]; [rewrite (K1 Nx); exact Nx|auto].
    - intros ev Iv. specialize (Hh ev Iv). destruct ev; auto.
    - intros Nx. destruct Hx; congruence. }
  destruct (HK (loc d) (or_intror eq_refl)) as [I1 (d' & E1 & L1 & S1)]. exists d'. split; [exact E1|]. split; [exact S1|]. intros x Sx Nx. apply stored_loc in Sx. subst x. split; [apply stored_loc; symmetry; apply L1, Nx|].
  intros e pl tl w2 T He E. destruct (Step _ _ _ _ _ _ _ _ (conj eq_refl He) I1 E1 E) as [_ (d2 & _ & _ & C)]. rewrite (L1 Nx) in C. apply (proj2 (C Nx)). reflexivity.
Qed.
(** If all KeyChains use the default TPM (which is DT in all environments), no PIB loses anything, the default
    PIB and with allowReset included. *)
Theorem C97_default_history : forall h w p d DT,
  (forall ev, In ev h -> match ev with
     | New e _ tl _ => (forall l, default_says (e_tpm e) (e_conf e) s_tpm s_file l -> exists sl, check_tpm l = inl sl /\ canonical sl = DT) /\ (exists t, tl = Some t /\ (t = [] \/ exists ts, check_tpm t = inl ts /\ canonical ts = DT))
     | New0 e _ => forall l, default_says (e_tpm e) (e_conf e) s_tpm s_file l -> exists sl, check_tpm l = inl sl /\ canonical sl = DT
     | _ => True end) ->
  w_tpmdef w = None -> w_files w p = Some d -> stored d DT \/ stored d [] ->
  exists d', w_files (ev_run h w) p = Some d' /\ same_content (s_run (uses p h) d) d'.
Proof.
  intros h w p d DT Hh Hw Ef Hs.
  destruct (history (fun w => w_tpmdef w = None \/ w_tpmdef w = Some DT) (fun d => loc d = DT \/ loc d = [])
    (fun e _ tl _ => (forall l, default_says (e_tpm e) (e_conf e) s_tpm s_file l -> exists sl, check_tpm l = inl sl /\ canonical sl = DT) /\ (exists t, tl = Some t /\ (t = [] \/ exists ts, check_tpm t = inl ts /\ canonical ts = DT))) p) with (h := h) (w := w) (d := d) as [_ (d' & E1 & _ & E2)]; auto.
  - intros d1 d2 El Hd. rewrite El. exact Hd.
  - clear. intros e pl tl allow w w' r d [He (t & -> & Ht)] Hi Ef Hk H. destruct (init_cases _ _ _ _ _ _ _ _ H) as [Cs X].
    assert (Dt : dtpm e w = DT). { unfold dtpm. destruct Hi as [-> | ->]; [|reflexivity]. unfold resolve_tpm. cbv zeta. destruct (He (first_choice (e_tpm e) (e_conf e) s_tpm s_file)) as (sl & C & G); [apply default_choice; reflexivity|]. rewrite C. exact G. }
    assert (I2 : w_tpmdef w' = None \/ w_tpmdef w' = Some DT). { destruct Cs as [_ [C|C]]; rewrite C; [right; congruence|exact Hi]. } split; [exact I2|].
    destruct X as [(F & _)|(sl & d' & Cp & (a & b & HR) & O)]. { exists d. split; [congruence|]. split; [exact Hk|apply same_refl]. }
    destruct HR as (_ & _ & _ & N & Sm). destruct (place_dec (place_of sl) p) as [Q|Q]. 2:{ exists d. split; [rewrite (N p Q); exact Ef|]. split; [exact Hk|apply same_refl]. }
    exists d'. split; [apply Sm, Q|]. rewrite (before_old _ _ d _ (or_introl Ef) (eq_sym Q)) in O.
    assert (Tt : forall t1 ts1, the_tpm e w (Some t) = Some t1 -> check_tpm t1 = inl ts1 -> canonical ts1 = DT).
    { intros t1 ts1 A C. unfold the_tpm in A. destruct t as [|c t]; injection A as <-.
      - rewrite Dt in C. destruct (He (first_choice (e_tpm e) (e_conf e) s_tpm s_file)) as (s3 & C3 & G3); [apply default_choice; reflexivity|]. rewrite <- G3, (tpm_canonical _ _ C3) in C. congruence.
      - destruct Ht as [Ht|(ts & C3 & G3)]; [discriminate Ht|congruence]. }
    inversion O as [|t1 T1 T2|K|t1 ts1 T1 T2 K|t1 ts1 T1 T2 Q1 Q2 Q3 Q4|t1 ts1 T1 T2 Q1 Q2 Q3 Q4|t1 ts1 s2 T1 T2 Q1 Q2 Q3 Q4|t1 ts1 T1 T2 Q1 Q2 Q3 Q4]; subst; try (split; [exact Hk|apply same_refl]); try (exfalso; destruct Hk; congruence).
    + split; [|apply pset_same]. rewrite (Tt _ _ T1 T2). unfold pset. destruct (zle_cases (dtpm e w) (loc d)) as [[A B]|[A B]]; rewrite B; [auto|]. unfold with_tpm, loc, set_rows in *. cbn [b_tpm]. destruct (b_tpm d) as [|[|c0 x] r0]; auto.
    + exfalso. rewrite (Tt _ _ T1 T2) in Q3. destruct Hk; congruence.
  - intros ev Iv. specialize (Hh ev Iv). destruct ev; auto. split; [exact Hh|]. exists []. auto.
  - destruct Hs as [Hs|Hs]; apply stored_loc in Hs; auto.
  - exists d'. auto.
Qed.
End Loc.

(** ** Crashes *)
(** If the process ends inside the constructor, the file has the old content, or (if it is to be
    reset) nothing; if the content is there, so is the TPM locator, and the next constructor comes to
    the same verdict. *)
Theorem C97_crash : forall T d d1, linked d ->
  (In d1 (crashes (p_pibSet T) d) -> same_content d d1) /\
  (In d1 (crashes (pbind p_reset (fun _ => p_pibSet T)) d) -> d1 = d \/ erased d1).
Proof.
  intros T d d1 L. split.
  - unfold p_pibSet, p_getTpmLocator, one_row, give, p_setTpmLocator, p_getTpmLocator, one_row, do, give. cbn [pbind crashes read]. destruct (b_tpm d) as [|x r] eqn:E; cbn [pbind]; intros I;
    repeat match type of I with context [zlist_eqb ?a ?b] => destruct (zlist_eqb a b); cbn [pbind crashes read write] in I end;
    repeat match type of I with In _ (crashes (Ask _ _) _) => cbn [crashes read] in I; rewrite ?E in I; cbn [pbind] in I | In _ (_ :: _) => destruct I as [<-|I]; [apply same_refl || (split; [|split]; reflexivity)|] | In _ [] => destruct I end.
    all: cbn [crashes read write pbind] in I; rewrite ?E in I; cbn [pbind crashes] in I;
    repeat match type of I with context [zlist_eqb ?a ?b] => destruct (zlist_eqb a b); cbn [pbind crashes read write] in I end;
    repeat match type of I with In _ (_ :: _) => destruct I as [<-|I]; [apply same_refl || (split; [|split]; reflexivity)|] | In _ [] => destruct I end.
  - pose proof (cleared_erased d L) as Er. intros I. assert (W : forall (A : Type) (p : prog A), (fix only (p : prog A) : Prop := match p with Done _ => True | Ask _ k => forall rows, only (k rows) | Run u k => match u with UInsertTpm _ | USetTpm _ => True | _ => False end /\ only k end) p -> forall d0, erased d0 -> In d1 (crashes p d0) -> erased d1).
    { intros A p. induction p as [r|q k IH|u k IH]; intros H d0 E0 J.
      - destruct J as [<-|[]]. exact E0.
      - destruct J as [<-|J]; [exact E0|]. eapply (IH _ (H _)); eassumption.
      - destruct J as [<-|J]; [exact E0|]. destruct H as [Hu Hk]. destruct u; try destruct Hu; cbn [write] in J; refine (IH Hk _ _ J); exact E0. }
    unfold p_reset, p_clearIdentities, do in I. cbn [pbind crashes give write] in I. destruct I as [<-|I]; [left; reflexivity|]. right. fold (cleared d) in I. revert I. apply W; [|exact Er].
    unfold p_setTpmLocator, p_pibSet, p_setTpmLocator, p_getTpmLocator, one_row, do, give. cbn [pbind]. intros rows. destruct rows as [|x rows]; cbn [pbind];
    repeat match goal with |- context [zlist_eqb ?a ?b] => destruct (zlist_eqb a b); cbn [pbind] end; (split; [exact Logic.I|]) || idtac; intros rows2; destruct rows2 as [|y r2]; cbn [pbind]; repeat (destruct (zlist_eqb _ _); cbn [pbind]); try exact Logic.I; intros rows3; destruct rows3 as [|z r3]; cbn [pbind]; repeat (destruct (zlist_eqb _ _); cbn [pbind]); split; exact Logic.I.
Qed.
(** Making the KeyChain again after a crash in a reset gives what the reset was to give. *)
Theorem C97_retry : forall dir e w D DT sdt pl tl u sl t ts p d d1 x,
  w_pibdef w = Some D -> w_tpmdef w = Some DT -> check_tpm DT = inl sdt -> canonical sdt = DT ->
  meant pl D u -> check_pib u = inl sl -> place_of dir sl = InFile p -> canonical sl <> D -> meant tl DT t -> check_tpm t = inl ts ->
  linked d -> stored d x -> x <> [] -> x <> canonical ts -> In d1 (crashes (pbind p_reset (fun _ => p_pibSet (canonical ts))) d) -> w_files w p = Some d1 ->
  let (w', r) := k_init dir e pl (Some tl) true w in r = inl (KC (InFile p) (canonical ts)) /\ exists d', w_files w' p = Some d' /\ erased d'.
Proof.
  intros dir e w D DT sdt pl tl u sl t ts p d d1 x Ep Et Cd Cc Mp Cp Pl ND Mt Ct L S Nx Nt I Ef. destruct (C97_crash (canonical ts) d d1 L) as [_ Cr]. specialize (Cr I).
  assert (L1 : linked d1). { destruct Cr as [->|(A & B & C)]; [exact L|]. split; [rewrite B|rewrite C]; intros r []. }
  pose proof (C97_exact dir e w D DT sdt pl tl true u sl t ts p d1 (loc d1) Ep Et Cd Cc Mp Cp Pl Mt Ct (or_introl Ef) L1 (proj2 (stored_loc d1 (loc d1)) eq_refl)) as H.
  destruct (k_init dir e pl (Some tl) true w) as [w' r]. destruct H as (d' & E' & F & _). apply stored_loc in S. unfold judge in F. rewrite (zle_neq _ _ ND) in F.
  destruct Cr as [-> | Er].
  - rewrite <- S, (zle_neq _ _ Nx), (zle_neq _ _ Nt) in F. destruct F as [-> F]. split; [reflexivity|]. exists d'. auto.
  - assert (SE : forall d', same_content d1 d' -> erased d'). { intros d2 (A & B & C). destruct Er as (A' & B' & C'). repeat split; congruence. }
    destruct (zlist_eqb (loc d1) []); [|destruct (zlist_eqb (loc d1) (canonical ts))]; destruct F as [-> F]; (split; [reflexivity|]); exists d'; auto.
Qed.

(** ** Versions *)
Lemma file_stays : forall dir ev w q, w_files w q <> None -> w_files (ev_step dir w ev) q <> None.
Proof.
  assert (K : forall dir e pl tl allow w q, w_files w q <> None -> w_files (fst (k_init dir e pl tl allow w)) q <> None).
  { intros dir e pl tl allow w q H. destruct (k_init dir e pl tl allow w) as [w' r] eqn:E. destruct (init_cases _ _ _ _ _ _ _ _ E) as [_ [(F & _)|(sl & d' & _ & (a & b & HR) & _)]]; cbn [fst]; [congruence|]. destruct HR as (_ & _ & _ & N & Sm). destruct (place_dec (place_of dir sl) q) as [Q|Q]; [rewrite (Sm q Q); discriminate|rewrite (N q Q); exact H]. }
  intros dir ev w q H. destruct ev as [e pl tl allow|e v1|p o|]; cbn [LocModel.ev_step].
  - apply K, H.
  - unfold k_init0. destruct (v1 && _); [exact H|apply K, H].
  - destruct (w_files w p) as [d|]; [|exact H]. cbn. unfold put_file. destruct (zlist_eqb p q); [discriminate|exact H].
  - exact H.
Qed.
(** Security version 1 is used by KeyChain() exactly while there is a version 1 database and no PIB file in the default
    directory: never again once there was one. *)
Theorem C97_version : forall dir h w e v1,
  (w_files w dir <> None -> snd (k_init0 dir e v1 (ev_run dir h w)) <> inl KV1) /\
  (snd (k_init0 dir e v1 w) = inl KV1 <-> v1 = true /\ w_files w dir = None).
Proof.
  assert (N : forall dir e pl tl allow w, snd (k_init dir e pl tl allow w) <> inl KV1).
  { intros dir e pl tl allow w. destruct (k_init dir e pl tl allow w) as [w' r] eqn:E. cbn [snd]. destruct (init_cases _ _ _ _ _ _ _ _ E) as [_ [(_ & -> & _)|(sl & d' & _ & _ & O)]]; [discriminate|]. inversion O; discriminate. }
  intros dir h w e v1.
  assert (X : forall w, snd (k_init0 dir e v1 w) = inl KV1 <-> v1 = true /\ w_files w dir = None).
  { intros w0. unfold k_init0. destruct v1; cbn [andb]; [|split; [intros H; destruct (N _ _ _ _ _ _ H)|intros [H _]; discriminate H]]. destruct (w_files w0 dir); [|split; [intros _; auto|reflexivity]]. split; [intros H; destruct (N _ _ _ _ _ _ H)|intros [_ H]; discriminate H]. }
  split; [|apply X]. intros H K. apply X in K. destruct K as [_ K]. revert K. induction h as [|ev h IH] using rev_ind; [exact H|]. rewrite ev_snoc. apply file_stays. exact IH.
Qed.
