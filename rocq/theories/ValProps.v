(** * Property C42: validation *)
From Verif Require Import Base BaseLemmas NameModel NameSpec NameProofs DictModel DictProofs CertModel CertSpec CertProofs AnchorSpec ValModel ValSpec.
From Verif Require CertProps AnchorProps.
From Coq Require Import Permutation.
Local Open Scope res_scope.

Section C42.
Context {P C I : Type}.
Variable ct_name : C -> name.
Variable ct_period : C -> res (Z * Z).
Variable ct_check : C -> res unit.
Variable i_name : I -> name.
Variable i_matches : I -> C -> bool.
Variable ver : P -> C -> res bool.
Variable verc : C -> C -> res bool.
Variable pol : nat -> P -> verdict I.
Variable polc : nat -> C -> verdict I.
Variable express : nat -> I -> option exn.
Variable files : nat -> Z -> res (list (option C)).
Variable online : bool.
Variable maxDepth : Z.
(** Names are made of valid components. *)
Hypothesis Nc : forall c, nval (ct_name c).
Hypothesis Ni : forall r, nval (i_name r).

Notation ct_notAfter := (ct_notAfter ct_period).
Notation step := (step ct_name ct_period ct_check i_name i_matches ver verc pol polc express files online maxDepth).
Notation run := (run ct_name ct_period ct_check i_name i_matches ver verc pol polc express files online maxDepth).
Notation requestCertificate := (requestCertificate ct_name ct_period ct_check i_name i_matches ver verc polc express files online maxDepth).
Notation validateCertificate := (validateCertificate ct_period ct_check polc).
Notation findTrusted := (findTrusted ct_name ct_check i_name i_matches files).
Notation cacheVerified := (cacheVerified ct_name ct_period ct_check).
Notation cacheUnverified := (cacheUnverified ct_name ct_period ct_check).
Notation cacheAll := (cacheAll ct_name ct_period ct_check).
Notation cacheLayers := (cacheLayers ct_name ct_period ct_check).
Notation fetch := (fetch ct_name ct_period ct_check i_name i_matches express online).
Notation doFetch := (doFetch express online).
Notation verifyLoop := (verifyLoop verc).
Notation verifyCertificateChain := (verifyCertificateChain verc).
Notation verifyOriginalPacket := (verifyOriginalPacket ver).
Notation validate := (validate ct_name ct_period ct_check i_name i_matches ver verc pol polc express files online maxDepth).
Notation onData := (onData ct_name ct_period ct_check i_name i_matches ver verc polc express files online maxDepth).
Notation onTimeout := (onTimeout ct_name ct_period ct_check i_name i_matches ver verc polc express files online maxDepth).
Notation world := (@world P C I).
Notation vstate := (@vstate P C).
Notation pending := (@pending P C I).
Notation cinv := (CertProps.inv ct_name).
Notation tinv := (AnchorProps.tinv ct_name).

Section History.
Variable H : list (@event P C).
(** the names removed from a trust anchor group *)
Hypothesis Nr : forall id n, In (EAnchor (TRemove id n)) H -> nval n.
Notation accepted := (accepted ct_period ct_check polc H).
Notation chased := (chased ct_period ct_check i_matches pol polc H).
Notation given := (given files H).
Notation anchor := (anchor ct_check files H).
Notation registered := (registered H).
Notation trusted := (trusted ct_period ct_check i_matches verc polc files H).
Notation signed := (signed ct_period ct_check i_matches verc polc files H).
Notation signs := (signs ver verc).
Notation starts := (starts H).
Notation justified := (justified ct_period ct_check i_name i_matches ver verc pol polc files maxDepth H).
Notation kept := (kept H).
Notation remembered := (remembered H).

(** ** Storage *)
(** in the verified cache before event [k], until [u] *)
Definition verified (k : nat) (c : C) (u : Z) : Prop :=
  exists j now' nb na, (j < k)%nat /\ remembered j k /\ (nth_error H j = Some (EVerified now' c) \/ signed j now' c) /\
  ct_check c = Ok tt /\ ct_period c = Ok (nb, na) /\ now' <= na /\ u = Z.min na (now' + 3600000).
Lemma verified_trusted : forall k now c u, verified k c u -> now < u -> trusted k now c.
Proof.
  intros k now c u (j & now' & nb & na & L & R & [E|S] & E1 & E2 & L1 & ->) L2; [eapply T_user|eapply T_signed]; eassumption.
Qed.
Record stor (k : nat) (w : world) : Prop := Stor {
  st_t : tinv (w_tc w);
  st_a : AnchorProps.from (anchor k) (tc_anchors (w_tc w));
  st_g : forall id g, In (id, g) (tc_groups (w_tc w)) -> g_dynamic g <> None -> registered k id;
  st_v : cinv (w_ver w);
  st_m : cc_max (w_ver w) = 3600000;
  st_e : forall n c u, In (n, (c, u)) (cc_dict (w_ver w)) -> verified k c u;
  st_u : cinv (w_unv w) }.
(** the parts of the world the storage functions leave alone *)
Definition same (w w' : world) : Prop := w_log w' = w_log w /\ w_pend w' = w_pend w /\ w_next w' = w_next w /\ w_event w' = w_event w.
Lemma same_refl : forall w, same w w.
Proof. intros. unfold same. auto. Qed.
Lemma same_trans : forall a b c, same a b -> same b c -> same a c.
Proof. unfold same. intros a b c (A1 & A2 & A3 & A4) (B1 & B2 & B3 & B4). repeat (split; [congruence|]). congruence. Qed.

(** the refresh of the groups only uses the files of the dynamic groups *)
Lemma refresh_ext : forall now f f' gs a, (forall id g, In (id, g) gs -> g_dynamic g <> None -> f id = f' id) ->
  refresh_groups ct_name ct_check now f gs a = refresh_groups ct_name ct_check now f' gs a.
Proof.
  intros now f f'. induction gs as [|[id g] gs IH]; intros a E; cbn [refresh_groups]; [reflexivity|].
  assert (G : g_refresh ct_name ct_check g a now (f id) = g_refresh ct_name ct_check g a now (f' id)).
  { unfold g_refresh. destruct (g_dynamic g) as [pe|] eqn:D; [|reflexivity]. rewrite (E id g (or_introl eq_refl)) by congruence. reflexivity. }
  rewrite G. destruct (g_refresh ct_name ct_check g a now (f' id)) as [[g' a'] [u|e]]; [|reflexivity]. rewrite IH; [reflexivity|]. intros id' g0 I'. apply E. right. exact I'.
Qed.
Lemma refresh_dyn : forall now f gs a gs' a' r, refresh_groups ct_name ct_check now f gs a = (gs', a', r) ->
  forall id g', In (id, g') gs' -> g_dynamic g' <> None -> exists g, In (id, g) gs /\ g_dynamic g <> None.
Proof.
  intros now f. induction gs as [|[id g] gs IH]; intros a gs' a' r E id0 g0 I' D; cbn [refresh_groups] in E.
  - injection E as <- <- <-. destruct I'.
  - destruct (g_refresh ct_name ct_check g a now (f id)) as [[g1 a1] [u|e]] eqn:G.
    + destruct (refresh_groups ct_name ct_check now f gs a1) as [[gs2 a2] r2] eqn:R. injection E as <- <- <-. destruct I' as [[= <- <-]|I'].
      * exists g. split; [left; reflexivity|]. intros X. apply D. unfold g_refresh in G. rewrite X in G. injection G as <- <-. exact X.
      * destruct (IH _ _ _ _ R _ _ I' D) as (g2 & I2 & D2). exists g2. split; [right; exact I2|exact D2].
    + injection E as <- <- <-. destruct I' as [[= <- <-]|I'].
      * exists g. split; [left; reflexivity|]. intros X. apply D. unfold g_refresh in G. rewrite X in G. discriminate G.
      * exists g0. split; [right; exact I'|exact D].
Qed.
Lemma step_dyn : forall t o id g, In (id, g) (tc_groups (t_step ct_name ct_check t o)) -> g_dynamic g <> None ->
  (o <> TClear /\ exists g', In (id, g') (tc_groups t) /\ g_dynamic g' <> None) \/ exists p now fs, o = TPath id p now fs.
Proof.
  intros t o id g I' D. destruct o as [id0 c|id0 p now fs|id0 n|now fs|]; cbn [t_step] in I'.
  - left. split; [intros [=]|]. unfold tc_insert in I'. destruct (dget Z.eqb (tc_groups t) id0) as [g0|] eqn:E0.
    + destruct (g_dynamic g0) eqn:D0; cbn [fst] in I'; [exists g; auto|]. unfold static_add in I'. destruct (in_list (ct_name c) (g_names g0)); cbn [fst tc_groups] in I'.
      * apply AnchorProps.zset_in in I'. destruct I' as [[= -> ->]|I']; [congruence|exists g; auto].
      * destruct (ac_add ct_name ct_check (tc_anchors t) c); cbn [fst tc_groups] in I'; apply AnchorProps.zset_in in I'; (destruct I' as [[= -> ->]|I']; [cbn [g_dynamic] in D; congruence|exists g; auto]).
    + cbn [g_dynamic] in I'. unfold static_add in I'. cbn [g_names in_list existsb tc_anchors] in I'.
      destruct (ac_add ct_name ct_check (tc_anchors t) c); cbn [fst tc_groups] in I'; apply AnchorProps.zset_in in I'; (destruct I' as [[= -> ->]|I']; [cbn [g_dynamic] in D; congruence|]);
      apply AnchorProps.zset_in in I'; (destruct I' as [[= -> ->]|I']; [cbn [g_dynamic] in D; congruence|exists g; auto]).
  - unfold tc_insertPath in I'. destruct (din Z.eqb (tc_groups t) id0); [left; split; [intros [=]|exists g; auto]|]. destruct (p <=? 0); [left; split; [intros [=]|exists g; auto]|].
    destruct (g_refresh ct_name ct_check (Group [] (Some (p, 0))) (tc_anchors t) now fs) as [[g1 a1] [u|e]]; cbn [fst tc_groups] in I'; [|left; split; [intros [=]|exists g; auto]].
    apply AnchorProps.zset_in in I'. destruct I' as [[= -> ->]|I']; [right; eauto|left; split; [intros [=]|exists g; auto]].
  - left. split; [intros [=]|]. unfold tc_remove in I'. destruct (dget Z.eqb (tc_groups t) id0) as [g0|] eqn:E0; [|exists g; auto]. destruct (g_dynamic g0) eqn:D0; [exists g; auto|].
    cbn [static_remove fst tc_groups] in I'. apply AnchorProps.zset_in in I'. destruct I' as [[= -> ->]|I']; [cbn [g_dynamic] in D; congruence|exists g; auto].
  - left. split; [intros [=]|]. unfold tc_refresh in I'. destruct (refresh_groups ct_name ct_check now fs (tc_groups t) (tc_anchors t)) as [[gs a] r] eqn:R. cbn [fst tc_groups] in I'.
    eapply refresh_dyn; eassumption.
  - destruct I'.
Qed.

Lemma kept_S : forall j k, kept j k -> (j < k)%nat -> nth_error H k <> Some (EAnchor TClear) -> kept j (S k).
Proof. intros j k K L N m Lm. destruct (Nat.eq_dec m k) as [->|]; [exact N|apply K; lia]. Qed.
Lemma kept_self : forall k, kept k (S k).
Proof. intros k m L. lia. Qed.
Lemma anchor_S : forall k c, anchor k c -> nth_error H k <> Some (EAnchor TClear) -> anchor (S k) c.
Proof. intros k c (E & j & L & G & K) N. split; [exact E|]. exists j. split; [lia|]. split; [exact G|apply kept_S; assumption]. Qed.
Lemma registered_S : forall k id, registered k id -> nth_error H k <> Some (EAnchor TClear) -> registered (S k) id.
Proof. intros k id (j & p & t & fs & L & E & K) N. exists j, p, t, fs. split; [lia|]. split; [exact E|apply kept_S; assumption]. Qed.
Lemma verified_S : forall k c u, verified k c u -> nth_error H k <> Some EReset -> verified (S k) c u.
Proof.
  intros k c u (j & now' & nb & na & L & R & X) N. exists j, now', nb, na. split; [lia|]. split; [|exact X]. intros m Lm. destruct (Nat.eq_dec m k) as [->|]; [exact N|apply R; lia].
Qed.
Lemma stor_S : forall k w, stor k w -> nth_error H k <> Some (EAnchor TClear) -> nth_error H k <> Some EReset -> stor (S k) w.
Proof.
  intros k w [A B G V M E U] N1 N2. constructor; auto.
  - intros n c I'. apply anchor_S; [eapply B; exact I'|exact N1].
  - intros id g I' D. apply registered_S; [eapply G; eassumption|exact N1].
  - intros n c u I'. apply verified_S; [eapply E; exact I'|exact N2].
Qed.
(** worlds with the same storage *)
Lemma stor_ext : forall k w w', stor k w -> w_tc w' = w_tc w -> w_ver w' = w_ver w -> w_unv w' = w_unv w -> stor k w'.
Proof. intros k w w' [A B G V M E U] E1 E2 E3. constructor; rewrite ?E1, ?E2, ?E3; assumption. Qed.

(** the refresh of the trust anchors in event [k] *)
Lemma tc_refresh_stor : forall k w e now, stor (S k) w -> w_event w = k -> nth_error H k = Some e -> time e = Some now ->
  stor (S k) (setTc w (fst (tc_refresh ct_name ct_check (w_tc w) now (files k)))).
Proof.
  intros k w e now S Ek He Ht. destruct S as [A B G V M E U].
  assert (Nt : nth_error H k <> Some (EAnchor TClear)) by (rewrite He; intros [= ->]; discriminate Ht).
  set (f' := fun id : Z => match dget Z.eqb (tc_groups (w_tc w)) id with Some _ => files k id | None => Err OtherError end).
  (* the groups with their files; only those registered *)
  assert (Reg : forall id g, In (id, g) (tc_groups (w_tc w)) -> g_dynamic g <> None -> registered k id).
  { intros id g I' D. destruct (G id g I' D) as (j & p & t & fs & L & Ej & K). assert (j <> k) by (intros ->; rewrite He in Ej; injection Ej as ->; discriminate Ht). exists j, p, t, fs. split; [lia|]. split; [exact Ej|]. intros m Lm. apply K. lia. }
  pose proof (AnchorProps.refresh_groups_inv ct_name ct_check) as RI.
  unfold tc_refresh. destruct (refresh_groups ct_name ct_check now (files k) (tc_groups (w_tc w)) (tc_anchors (w_tc w))) as [[gs' a'] r'] eqn:R. cbn [fst].
  assert (Main : AnchorProps.ainv ct_name a' /\ AnchorProps.groups_val gs' /\ AnchorProps.from (anchor (S k)) a').
  { (* one group at a time *)
    clear RI. destruct A as [Aa Ag]. revert R Aa Ag B Reg. generalize (tc_groups (w_tc w)) (tc_anchors (w_tc w)). clear G f'. intros gs. revert gs' a' r'. induction gs as [|[id g] gs IH]; intros gs' a' r' a R Aa Ag Fa Reg; cbn [refresh_groups] in R.
    - injection R as <- <- <-. auto.
    - assert (Vg1 : AnchorProps.gval g) by (apply (Ag id); left; reflexivity). assert (Vg2 : AnchorProps.groups_val gs) by (intros id' g' I'; apply (Ag id'); right; exact I').
      assert (GI : match g_refresh ct_name ct_check g a now (files k id) with (g', a', r) => AnchorProps.ainv ct_name a' /\ AnchorProps.gval g' /\ AnchorProps.from (anchor (S k)) a' end).
      { destruct (g_dynamic g) as [pe|] eqn:D.
        - pose proof (AnchorProps.g_refresh_inv ct_name ct_check (anchor (S k)) g a now (files k id) Aa Vg1 Fa) as X. destruct (g_refresh ct_name ct_check g a now (files k id)) as [[g1 a1] r1]. destruct X as (X1 & X2 & X3 & _).
          + intros fs _ c _. apply Nc.
          + intros fs c Ef Ic Ec. split; [exact Ec|]. exists k. split; [lia|]. split; [|apply kept_self]. exists e. split; [exact He|]. destruct e; try discriminate Ht; (split; [discriminate|]); exists id, fs; (split; [apply (Reg id g); [left; reflexivity|congruence]|auto]).
          + auto.
        - unfold g_refresh. rewrite D. auto. }
      destruct (g_refresh ct_name ct_check g a now (files k id)) as [[g1 a1] r1]. destruct GI as (G1 & G2 & G3). destruct r1 as [u|e1].
      + destruct (refresh_groups ct_name ct_check now (files k) gs a1) as [[gs2 a2] r2] eqn:R2. injection R as <- <- <-.
        destruct (IH _ _ _ _ R2 G1 Vg2 G3) as (Y1 & Y2 & Y3); [intros id' g' I'; apply Reg; right; exact I'|]. split; [exact Y1|]. split; [|exact Y3]. intros id' g0 [[= <- <-]|I']; [exact G2|eapply Y2; exact I'].
      + injection R as <- <- <-. split; [exact G1|]. split; [|exact G3]. intros id' g0 [[= <- <-]|I']; [exact G2|eapply Vg2; exact I']. }
  destruct Main as (M1 & M2 & M3). constructor; cbn [setTc w_tc w_ver w_unv tc_anchors tc_groups]; auto.
  - constructor; assumption.
  - intros id g I' D. destruct (refresh_dyn _ _ _ _ _ _ _ R _ _ I' D) as (g0 & I0 & D0). eapply G; eassumption.
Qed.

(** cc_find: the refreshed cache, and a matching entry that has not expired *)
Lemma cc_find_ok : forall s now r, cinv s -> exists s' o, cc_find ct_name i_name i_matches s now r = Ok (s', o) /\ cinv s' /\ cc_max s' = cc_max s /\
  (forall n c u, In (n, (c, u)) (cc_dict s') -> In (n, (c, u)) (cc_dict s)) /\
  (forall c, o = Some c -> i_matches r c = true /\ exists n u, In (n, (c, u)) (cc_dict s) /\ now < u).
Proof.
  intros s now r V. unfold cc_find. destruct (CertProps.refresh_inv ct_name ct_notAfter ct_check s now V) as (s' & E & V' & M' & Ent). rewrite E. cbn [rbind].
  destruct (CertProps.find_loop_ok ct_name i_name i_matches (cc_dict s') r (skipn (bisect_left (cc_keys s') (i_name r)) (cc_keys s')) (CertProps.inv_dom _ _ V') (CertProps.inv_uniq _ _ V')) as (o & El & Po).
  { intros k Hk. assert (Hk' : In k (cc_keys s')) by (rewrite <- (firstn_skipn (bisect_left (cc_keys s') (i_name r)) (cc_keys s')); apply in_or_app; right; exact Hk). apply (CertProps.inv_keys _ _ V') in Hk'. apply CertProps.in_keys in Hk'. destruct Hk' as [[c u] Hk']. exists c, u. split; [exact Hk'|exact (CertProps.inv_name _ _ V' _ _ _ Hk')]. }
  rewrite El. cbn [rbind]. exists s', o. split; [reflexivity|]. split; [exact V'|]. split; [exact M'|]. split; [intros n c u I'; apply Ent in I'; apply I'|].
  intros c ->. destruct Po as (a & k & b & u & _ & Ik & Em & _). split; [exact Em|]. exists k, u. apply Ent in Ik. exact Ik.
Qed.
Lemma tc_find_fst : forall t now f (r : I), fst (tc_find ct_name ct_check i_name i_matches t now f r) = fst (tc_refresh ct_name ct_check t now f).
Proof. intros. unfold tc_find. destruct (tc_refresh ct_name ct_check t now f) as [t' [u|e]]; reflexivity. Qed.
Lemma ac_find_some : forall a (r : I) c, AnchorProps.ainv ct_name a -> ac_find ct_name i_name i_matches a r = Ok (Some c) -> i_matches r c = true /\ exists n, In (n, c) (ac_dict a).
Proof.
  intros a r c A E. unfold ac_find in E. destruct (AnchorProps.find_loop_ok ct_name i_name i_matches (ac_dict a) r (skipn (bisect_left (ac_keys a) (i_name r)) (ac_keys a)) (AnchorProps.a_dom _ _ A) (AnchorProps.a_uniq _ _ A)) as (o & El & Po).
  { intros k Hk. assert (Hk' : In k (ac_keys a)) by (rewrite <- (firstn_skipn (bisect_left (ac_keys a) (i_name r)) (ac_keys a)); apply in_or_app; right; exact Hk). apply (AnchorProps.a_keys _ _ A) in Hk'. apply AnchorProps.in_keys in Hk'. destruct Hk' as [c' Hk']. exists c'. split; [exact Hk'|exact (AnchorProps.a_name _ _ A _ _ Hk')]. }
  rewrite El in E. injection E as ->. destruct Po as (x & k & b & _ & Ik & Em & _). split; [exact Em|]. exists k. exact Ik.
Qed.

(** Event [k] is an event of the validator, at the time [now]. *)
Section Event.
Variable k : nat.
Variable ev : @event P C.
Variable now : Z.
Hypothesis Hk : nth_error H k = Some ev.
Hypothesis Ht : time ev = Some now.

Lemma findTrusted_ok : forall w s r, stor (S k) w -> w_event w = k ->
  exists w' rr, findTrusted now r (w, s) = ((w', s), rr) /\ stor (S k) w' /\ same w w' /\ (forall c, rr = Ok (Some c) -> i_matches r c = true /\ trusted (S k) now c).
Proof.
  intros w s r S Ek. unfold ValModel.findTrusted. rewrite Ek. pose proof (tc_find_fst (w_tc w) now (files k) r) as F. pose proof (tc_refresh_stor k w ev now S Ek Hk Ht) as S1. rewrite <- F in S1.
  destruct (tc_find ct_name ct_check i_name i_matches (w_tc w) now (files k) r) as [t rt] eqn:E. cbn [fst] in S1, F. destruct rt as [[c|]|e].
  - exists (setTc w t), (Ok (Some c)). split; [reflexivity|]. split; [exact S1|]. split; [now (unfold same; auto)|]. intros c' [= <-]. unfold tc_find in E. destruct (tc_refresh ct_name ct_check (w_tc w) now (files k)) as [t' [u|e']]; [|discriminate E].
    injection E as <- E. destruct (ac_find_some _ _ _ (AnchorProps.t_a _ _ (st_t _ _ S1)) E) as [M [n In']]. split; [exact M|]. apply T_anchor. exact (st_a _ _ S1 _ _ In').
  - destruct (cc_find_ok (w_ver (setTc w t)) now r (st_v _ _ S1)) as (v & o & Ef & V' & M' & Sub & Fo). rewrite Ef. exists (setVer (setTc w t) v), (Ok o). split; [reflexivity|]. split; [|split; [now (unfold same; auto)|]].
    + destruct S1. constructor; cbn [setVer w_tc w_ver w_unv]; auto; [congruence|]. intros n c u I'. eapply st_e0. apply Sub. exact I'.
    + intros c [= ->]. destruct (Fo c eq_refl) as (Em & n & u & In' & L). split; [exact Em|]. eapply verified_trusted; [eapply (st_e _ _ S1); exact In'|exact L].
  - exists (setTc w t), (Err e). split; [reflexivity|]. split; [exact S1|]. split; [now (unfold same; auto)|]. intros c [=].
Qed.
Lemma cacheVerified_ok : forall w s c nb na, stor (S k) w -> signed k now c -> ct_check c = Ok tt -> ct_period c = Ok (nb, na) ->
  exists w', cacheVerified now c (w, s) = ((w', s), Ok tt) /\ stor (S k) w' /\ same w w'.
Proof.
  intros w s c nb na S Sg Ec Ep. unfold ValModel.cacheVerified. destruct (CertProps.insert_inv ct_name ct_notAfter ct_check (w_ver w) now c (st_v _ _ S) (Nc c)) as (V & M & Ent).
  assert (R : snd (cc_insert ct_name ct_notAfter ct_check (w_ver w) now c) = Ok tt).
  { unfold cc_insert, ValModel.ct_notAfter. rewrite Ep. cbn [rbind snd]. destruct (na <? now); [reflexivity|]. rewrite Ec. match goal with |- context [din ?a ?b ?c] => destruct (din a b c) end; reflexivity. }
  destruct (cc_insert ct_name ct_notAfter ct_check (w_ver w) now c) as [v rr]. cbn [fst snd] in *. subst rr. exists (setVer w v). split; [reflexivity|]. split; [|now (unfold same; auto)].
  pose proof (st_m _ _ S) as M0. destruct S. constructor; cbn [setVer w_tc w_ver w_unv]; auto; [congruence|]. intros n c' u I'. apply Ent in I'. destruct I' as [(T & -> & _ & U)|[_ I']]; [|eapply st_e0; exact I'].
  destruct T as (na1 & E1 & L1 & _). destruct U as (na2 & E2 & ->). unfold ValModel.ct_notAfter in E1, E2. rewrite Ep in E1, E2. injection E1 as <-. injection E2 as <-. rewrite M0. exists k, now, nb, na. split; [lia|]. split; [intros m Lm; lia|]. auto 10.
Qed.
Lemma cacheAll_ok : forall l w s, stor (S k) w -> (forall c, In c l -> signed k now c /\ ct_check c = Ok tt /\ exists nb na, ct_period c = Ok (nb, na)) ->
  exists w', cacheAll now l (w, s) = ((w', s), Ok tt) /\ stor (S k) w' /\ same w w'.
Proof.
  induction l as [|c l IH]; intros w s S F; cbn [ValModel.cacheAll].
  - exists w. split; [reflexivity|]. split; [exact S|now (unfold same; auto)].
  - destruct (F c (or_introl eq_refl)) as (F1 & F2 & nb & na & F3). destruct (cacheVerified_ok w s c nb na S F1 F2 F3) as (w1 & E1 & S1 & Sm1). unfold bind. rewrite E1.
    destruct (IH w1 s S1) as (w2 & E2 & S2 & Sm2); [intros c' I'; apply F; right; exact I'|]. exists w2. split; [exact E2|]. split; [exact S2|eapply same_trans; eassumption].
Qed.
Lemma cacheUnverified_ok : forall w s c, stor (S k) w -> exists w' r, cacheUnverified now c (w, s) = ((w', s), r) /\ stor (S k) w' /\ same w w'.
Proof.
  intros w s c S. unfold ValModel.cacheUnverified. destruct (CertProps.insert_inv ct_name ct_notAfter ct_check (w_unv w) now c (st_u _ _ S) (Nc c)) as (V & _). destruct (cc_insert ct_name ct_notAfter ct_check (w_unv w) now c) as [v rr]. cbn [fst] in V.
  exists (setUnv w v), rr. split; [reflexivity|]. split; [|now (unfold same; auto)]. destruct S. constructor; auto.
Qed.
Lemma cacheLayers_ok : forall n w s c, stor (S k) w -> exists w' r, cacheLayers now n c (w, s) = ((w', s), r) /\ stor (S k) w' /\ same w w'.
Proof.
  induction n as [|n IH]; intros w s c S; cbn [ValModel.cacheLayers]; [exists w, (Ok tt); split; [reflexivity|]; split; [exact S|now (unfold same; auto)]|].
  destruct (cacheUnverified_ok w s c S) as (w1 & r1 & E1 & S1 & Sm1). unfold bind. rewrite E1. destruct r1 as [u|e]; [|exists w1, (Err e); auto]. destruct (IH w1 s c S1) as (w2 & r2 & E2 & S2 & Sm2).
  exists w2, r2. split; [exact E2|]. split; [exact S2|eapply same_trans; eassumption].
Qed.

(** ** The chain *)
Fixpoint links (root : C) (chain : list C) : Prop := match chain with [] => True | c :: l => verc c root = Ok true /\ links c l end.
Lemma last_cons : forall (l : list C) (c d : C), last (c :: l) d = last l c.
Proof.
  induction l as [|c' l IH]; intros c d; [reflexivity|]. change (last (c :: c' :: l) d) with (last (c' :: l) d). rewrite !IH. reflexivity.
Qed.
Lemma signs_links : forall chain root p, links root chain -> ver p (last chain root) = Ok true -> signs root chain p.
Proof.
  induction chain as [|c l IH]; intros root p L V; cbn [links ValSpec.signs] in *; [exact V|]. destruct L as [L1 L2]. split; [exact L1|]. apply IH; [exact L2|]. rewrite last_cons in V. exact V.
Qed.
Lemma chased_chain : forall k' j0 chain reqs, chased k' j0 chain reqs -> forall c, In c chain -> ct_check c = Ok tt /\ exists nb na, ct_period c = Ok (nb, na).
Proof.
  intros k' j0 chain reqs Ch. induction Ch as [|c chain r r' rs Ch IH M A]; intros c' I'; [destruct I'|]. destruct I' as [<-|I']; [|auto]. destruct A as (j & e & t & nb & na & _ & _ & _ & _ & E1 & E2 & _). eauto.
Qed.
Lemma links_signed : forall ch1 ch2 j0 root r rs, chased (S k) j0 (ch1 ++ ch2) (r :: rs) -> i_matches r root = true -> trusted (S k) now root \/ signed k now root -> links root ch1 ->
  forall c, In c ch1 -> signed k now c.
Proof.
  induction ch1 as [|c1 ch1 IH]; intros ch2 j0 root r rs Ch M T L c I'; [destruct I'|]. cbn [app links] in *. inversion Ch as [|c0 chain r0 r' rs' Ch' M' A']; subst. destruct L as [L1 L2].
  assert (S1 : signed k now c1) by (eapply S_by; eassumption). destruct I' as [<-|I']; [exact S1|]. eapply (IH ch2 j0 c1); eauto.
Qed.
(** fail, on a state without outcome *)
Lemma fail_ok : forall (w : world) (s : vstate), vs_outcome s = None -> fail (w, s) = ((addLog w (vs_id s) Failure, VS (vs_id s) (vs_packet s) (vs_chain s) (vs_seen s) (Some false)), Ok tt).
Proof. intros w s E. unfold fail, bind, callback, setOutcome. rewrite E. reflexivity. Qed.
Lemma loop_ok : forall chain i t (w : world) (s : vstate), vs_outcome s = None ->
  (exists r, verifyLoop i chain t (w, s) = ((w, s), r) /\ (forall o, r = Ok o -> o = Some (last chain t) /\ links t chain)) \/
  (exists ch1 ch2, chain = ch1 ++ ch2 /\ links t ch1 /\
    verifyLoop i chain t (w, s) = ((addLog w (vs_id s) Failure, VS (vs_id s) (vs_packet s) (firstn (i + length ch1) (vs_chain s)) (vs_seen s) (Some false)), Ok None)).
Proof.
  induction chain as [|c chain IH]; intros i t w s O; cbn [ValModel.verifyLoop].
  - left. exists (Ok (Some t)). split; [reflexivity|]. intros o [= <-]. cbn. auto.
  - unfold lift, bind. destruct (verc c t) as [[|]|e] eqn:V.
    + destruct (IH (S i) c w s O) as [(r & E & R)|(ch1 & ch2 & -> & L & E)].
      * left. exists r. split; [exact E|]. intros o Eo. destruct (R o Eo) as [-> L]. split; [rewrite last_cons; reflexivity|cbn [links]; auto].
      * right. exists (c :: ch1), ch2. split; [reflexivity|]. split; [cbn [links]; auto|]. rewrite E. cbn [length]. replace (S i + length ch1)%nat with (i + S (length ch1))%nat by lia. reflexivity.
    + right. exists [], (c :: chain). split; [reflexivity|]. split; [exact Logic.I|]. change (fun s0 : world * vstate => match fail s0 with (s', Ok _) => (let '(w0, s1) := s' in ((w0, setChain s1 (firstn i (vs_chain s1))), Ok None)) | (s', Err e) => (s', Err e) end) with (bind fail (fun _ : unit => fun '(w0, s1) => ((w0, setChain s1 (firstn i (vs_chain s1))) : world * vstate, Ok (@None C)))).
      cbn [length]. rewrite Nat.add_0_r. unfold bind. rewrite fail_ok by exact O. reflexivity.
    + left. exists (Err e). split; [reflexivity|]. intros o [=].
Qed.

(** ** One event *)
(** the state [s] of the validation started at [j0] *)
Record live (k' : nat) (s : vstate) (j0 : nat) (chain : list C) (reqs : list I) : Prop := Live {
  lv_out : vs_outcome s = None;
  lv_start : exists now0, nth_error H j0 = Some (EValidate now0 (vs_packet s));
  lv_id : starts j0 = vs_id s;
  lv_before : (j0 < k')%nat;
  lv_chain : vs_chain s = chain;
  lv_chased : chased k' j0 chain reqs }.
Definition pend_ok (k' : nat) (pd : pending) : Prop :=
  exists j0 rs, live k' (pd_state pd) j0 (vs_chain (pd_state pd)) (pd_req pd :: rs) /\ vs_seen (pd_state pd) = map i_name (pd_req pd :: rs) /\ NoDup (vs_seen (pd_state pd)) /\
  zlen (vs_chain (pd_state pd)) < maxDepth /\ 0 <= pd_retries pd <= 3.
(** what an action of the validator does: one entry in the log, or one pending request, or an
    exception and neither *)
Definition Res (Q : pending -> Prop) (w : world) (s : vstate) (out : world * vstate * res unit) : Prop :=
  match out with
  | ((w', s'), r) =>
      stor (S k) w' /\ w_next w' = w_next w /\ w_event w' = w_event w /\ vs_id s' = vs_id s /\
      match r with
      | Ok _ => (exists n, w_log w' = w_log w ++ [(vs_id s, n)] /\ w_pend w' = w_pend w /\ (n = Success -> justified (S k) (vs_id s))) \/
                (exists pd, w_pend w' = w_pend w ++ [pd] /\ w_log w' = w_log w /\ vs_id (pd_state pd) = vs_id s /\ pend_ok (S k) pd /\ Q pd)
      | Err _ => w_log w' = w_log w /\ w_pend w' = w_pend w /\ vs_outcome s' = None
      end
  end.
Lemma Res_weaken : forall (Q Q' : pending -> Prop) w w' s s' out, Res Q w' s' out -> same w w' -> vs_id s' = vs_id s -> (forall pd, Q pd -> Q' pd) -> Res Q' w s out.
Proof.
  intros Q Q' w w' s s' [[w2 s2] r] (S & N & E & Id & R) (A1 & A2 & A3 & A4) Es W. cbn. split; [exact S|]. split; [congruence|]. split; [congruence|]. split; [congruence|]. destruct r as [u|e].
  - destruct R as [(n & L & Pd & J)|(pd & Pd & L & Ip & Ok' & HQ)].
    + left. exists n. rewrite <- A1, <- A2, <- Es. auto.
    + right. exists pd. rewrite <- A1, <- A2, <- Es. auto 10.
  - destruct R as (R1 & R2 & R3). split; [congruence|]. split; [congruence|exact R3].
Qed.
Lemma Res_fail : forall Q w s, stor (S k) w -> vs_outcome s = None -> Res Q w s (fail (w, s)).
Proof.
  intros Q w s S O. rewrite fail_ok by exact O. cbn. split; [eapply stor_ext; [exact S|reflexivity..]|]. repeat (split; [reflexivity|]). left. exists Failure. split; [reflexivity|]. split; [reflexivity|]. intros [=].
Qed.
Lemma Res_err : forall Q w s e, stor (S k) w -> vs_outcome s = None -> Res Q w s ((w, s), Err e).
Proof. intros Q w s e S O. cbn. auto 10. Qed.
Lemma Res_silent : forall Q w s, stor (S k) w -> Res Q w s (callback Silent (w, s)).
Proof. intros Q w s S. cbn. split; [eapply stor_ext; [exact S|reflexivity..]|]. repeat (split; [reflexivity|]). left. exists Silent. split; [reflexivity|]. split; [reflexivity|]. intros [=]. Qed.

Definition atleast (s : vstate) (pd : pending) : Prop := pd_retries pd = 3 /\ zlen (vs_chain s) <= zlen (vs_chain (pd_state pd)).
Lemma doFetch_ok : forall w s r rs j0 n l, stor (S k) w -> live (S k) s j0 (vs_chain s) (r :: rs) -> vs_seen s = map i_name (r :: rs) -> NoDup (vs_seen s) ->
  zlen (vs_chain s) < maxDepth -> 0 <= n <= 3 ->
  Res (fun pd => pd_retries pd = n /\ vs_chain (pd_state pd) = vs_chain s) w s (doFetch r n l (w, s)).
Proof.
  intros w s r rs j0 n l S L Es Nd D Ln. unfold ValModel.doFetch. destruct online; [|apply Res_fail; [exact S|apply L]]. destruct (express (w_event w) r); [apply Res_fail; [exact S|apply L]|].
  cbn. split; [eapply stor_ext; [exact S|reflexivity..]|]. repeat (split; [reflexivity|]). right. eexists. split; [reflexivity|]. repeat (split; [reflexivity|]). cbn [pd_state pd_req pd_retries]. split; [|auto]. exists j0, rs. cbn [pd_state pd_req pd_retries]. auto.
Qed.
(** with the continuation [request] *)
Definition request_spec (request : I -> M unit) : Prop := forall w s r rs j0, stor (S k) w -> w_event w = k -> live (S k) s j0 (vs_chain s) (r :: rs) -> vs_seen s = map i_name rs -> NoDup (vs_seen s) ->
  Res (atleast s) w s (request r (w, s)).
Lemma validateCertificate_ok : forall request, request_spec request -> forall w s c r rs j0, stor (S k) w -> w_event w = k -> live (S k) s j0 (vs_chain s) (r :: rs) -> vs_seen s = map i_name (r :: rs) -> NoDup (vs_seen s) ->
  i_matches r c = true -> Res (fun pd => pd_retries pd = 3 /\ zlen (vs_chain s) < zlen (vs_chain (pd_state pd))) w s (validateCertificate now request c (w, s)).
Proof.
  intros request RS w s c r rs j0 S Ek L Es Nd M. unfold ValModel.validateCertificate, bind, lift. unfold ct_isValid. destruct (ct_period c) as [[nb na]|e] eqn:Ep; cbn [rbind fst snd]; [|apply Res_err; [exact S|apply L]].
  destruct ((nb <=? now) && (now <=? na)) eqn:Ev; cbn [negb]; [|apply Res_fail; [exact S|apply L]]. rewrite Ek.
  destruct (polc k c) as [|[r'|]|e|] eqn:Epol; [apply Res_fail; [exact S|apply L]| |apply Res_fail; [exact S|apply L]|apply Res_err; [exact S|apply L]|apply Res_silent; exact S].
  unfold addCertificate. destruct (ct_check c) as [[]|e] eqn:Ec; [|apply Res_err; [exact S|apply L]].
  assert (R : Res (atleast (setChain s (c :: vs_chain s))) w (setChain s (c :: vs_chain s)) (request r' (w, setChain s (c :: vs_chain s)))).
  { apply RS with (rs := r :: rs) (j0 := j0); [exact S|exact Ek| |exact Es|exact Nd]. destruct L as [L1 L2 L3 L4 L5 L6]. constructor; cbn [setChain vs_outcome vs_packet vs_id vs_chain]; auto.
    apply Ch_next; [exact L6|exact M|]. exists k, ev, now, nb, na. split; [lia|]. split; [exact Hk|]. split; [exact Ht|]. split; [exact Epol|]. split; [exact Ec|]. split; [exact Ep|]. apply andb_true_iff in Ev. lia. }
  eapply Res_weaken; [exact R|now (unfold same; auto)|reflexivity|]. intros pd [A B]. split; [exact A|]. cbn [setChain vs_chain] in B. rewrite zlen_cons in B. lia.
Qed.
Definition advance (n : Z) (s : vstate) (pd : pending) : Prop := (pd_retries pd = n /\ vs_chain (pd_state pd) = vs_chain s) \/ (pd_retries pd = 3 /\ zlen (vs_chain s) < zlen (vs_chain (pd_state pd))).
Lemma fetch_ok : forall request, request_spec request -> forall w s r rs j0 n l, stor (S k) w -> w_event w = k -> live (S k) s j0 (vs_chain s) (r :: rs) -> vs_seen s = map i_name (r :: rs) -> NoDup (vs_seen s) ->
  zlen (vs_chain s) < maxDepth -> 0 <= n <= 3 ->
  Res (advance n s) w s (fetch now (validateCertificate now request) r n l (w, s)).
Proof.
  intros request RS w s r rs j0 n l S Ek L Es Nd D Ln. unfold ValModel.fetch. destruct (cc_find_ok (w_unv w) now r (st_u _ _ S)) as (u & o & Ef & V & M & Sub & Fo). rewrite Ef.
  assert (S1 : stor (Datatypes.S k) (setUnv w u)) by (destruct S; constructor; auto).
  destruct o as [c|].
  - destruct (Fo c eq_refl) as [Em _]. destruct (cacheLayers_ok l (setUnv w u) s c S1) as (w2 & r2 & E2 & S2 & Sm2). unfold bind. rewrite E2. assert (Sm : same w w2) by (eapply same_trans; [|exact Sm2]; now (unfold same; auto)).
    destruct r2 as [x|e].
    + eapply Res_weaken; [eapply validateCertificate_ok; try eassumption; destruct Sm as (_ & _ & _ & X); congruence|exact Sm|reflexivity|]. intros pd Q. right. exact Q.
    + destruct Sm as (X1 & X2 & X3 & X4). cbn. repeat (split; [assumption|]). split; [reflexivity|]. split; [exact X1|]. split; [exact X2|apply L].
  - eapply Res_weaken; [eapply doFetch_ok with (rs := rs) (j0 := j0) (n := n); try eassumption|now (unfold same; auto)|reflexivity|]. intros pd Q. left. exact Q.
Qed.
Lemma request_ok : forall fuel, request_spec (requestCertificate fuel now).
Proof.
  induction fuel as [|fuel IH]; intros w s r rs j0 S Ek L Es Nd; cbn [ValModel.requestCertificate]; [apply Res_err; [exact S|apply L]|].
  cbn [snd]. destruct (maxDepth <=? zlen (vs_chain s)) eqn:Ed; [apply Res_fail; [exact S|apply L]|]. unfold bind at 1. unfold hasSeen.
  assert (Vs : Forall nval (vs_seen s)) by (rewrite Es; apply Forall_forall; intros n In'; apply in_map_iff in In'; destruct In' as (i & <- & _); apply Ni).
  destruct (in_list (i_name r) (vs_seen s)) eqn:Ei; [apply Res_fail; [exact S|apply L]|].
  assert (Nn : ~ In (i_name r) (vs_seen s)) by (intros X; apply (AnchorProps.in_list_iff (i_name r) (vs_seen s) (Ni r) Vs) in X; congruence).
  set (s1 := setSeen s (i_name r :: vs_seen s)).
  assert (L1 : live (Datatypes.S k) s1 j0 (vs_chain s1) (r :: rs)) by (destruct L; constructor; auto).
  assert (Es1 : vs_seen s1 = map i_name (r :: rs)) by (cbn; congruence). assert (Nd1 : NoDup (vs_seen s1)) by (constructor; assumption).
  destruct (findTrusted_ok w s1 r S Ek) as (w1 & rr & Ef & S1 & Sm1 & Tr). unfold bind at 1. rewrite Ef.
  destruct rr as [[t|]|e].
  - destruct (Tr t eq_refl) as [Mt Tt]. unfold bind at 1. unfold ValModel.verifyCertificateChain. cbn [snd].
    destruct (loop_ok (vs_chain s1) 0 t w1 s1 (lv_out _ _ _ _ _ L1)) as [(lr & El & Pl)|(ch1 & ch2 & Ec & Lk & El)]; rewrite El.
    + destruct lr as [o|e].
      * destruct (Pl o eq_refl) as [-> Lk]. unfold bind, ValModel.verifyOriginalPacket, lift. cbn [snd].
        assert (Cache : forall w0 s0, stor (Datatypes.S k) w0 -> vs_chain s0 = vs_chain s1 -> exists w2, cacheAll now (vs_chain s0) (w0, s0) = ((w2, s0), Ok tt) /\ stor (Datatypes.S k) w2 /\ same w0 w2).
        { intros w0 s0 S0 E0. rewrite E0. apply cacheAll_ok; [exact S0|]. intros c Ic. split; [|eapply chased_chain; [apply L1|exact Ic]]. eapply (links_signed (vs_chain s1) [] j0 t r rs); eauto. rewrite app_nil_r. apply L1. }
        destruct (ver (vs_packet s1) (last (vs_chain s1) t)) as [[|]|e] eqn:Ev.
        -- unfold bind, callback, setOutcome. rewrite (lv_out _ _ _ _ _ L1). set (w2 := addLog w1 (vs_id s1) Success). set (s2 := VS _ _ _ _ _). destruct (Cache w2 s2) as (w3 & E3 & S3 & Sm3); [eapply stor_ext; [exact S1|reflexivity..]|reflexivity|].
           cbn [snd]. rewrite E3. destruct Sm1 as (X1 & X2 & X3 & X4), Sm3 as (Y1 & Y2 & Y3 & Y4). cbn. split; [exact S3|]. split; [etransitivity; [exact Y3|exact X3]|]. split; [etransitivity; [exact Y4|exact X4]|]. split; [reflexivity|].
           left. exists Success. split; [rewrite Y1; cbn [w2 addLog w_log]; rewrite X1; reflexivity|]. split; [rewrite Y2; exact X2|]. intros _.
           destruct L1 as [A1 [n0 A2] A3 A4 A5 A6]. exists j0, n0, (vs_packet s1). split; [exact A4|]. split; [exact A2|]. split; [exact A3|]. right. exists k, ev, now, (vs_chain s1), r, rs, t. split; [lia|].
           split; [exact Hk|]. split; [exact Ht|]. split; [exact A6|]. split; [rewrite <- Es1; exact Nd1|]. split; [cbn; lia|]. split; [exact Mt|]. split; [apply signs_links; assumption|exact Tt].
        -- unfold bind. rewrite fail_ok by apply L1. set (w2 := addLog w1 (vs_id s1) Failure). set (s2 := VS _ _ _ _ _). destruct (Cache w2 s2) as (w3 & E3 & S3 & Sm3); [eapply stor_ext; [exact S1|reflexivity..]|reflexivity|].
           cbn [snd]. rewrite E3. destruct Sm1 as (X1 & X2 & X3 & X4), Sm3 as (Y1 & Y2 & Y3 & Y4). cbn. split; [exact S3|]. split; [etransitivity; [exact Y3|exact X3]|]. split; [etransitivity; [exact Y4|exact X4]|]. split; [reflexivity|].
           left. exists Failure. split; [rewrite Y1; cbn [w2 addLog w_log]; rewrite X1; reflexivity|]. split; [rewrite Y2; exact X2|]. intros [=].
        -- eapply Res_weaken; [apply (Res_err (atleast s) w1 s1 e); [exact S1|apply L1]|exact Sm1|reflexivity|auto].
      * eapply Res_weaken; [apply (Res_err (atleast s) w1 s1 e); [exact S1|apply L1]|exact Sm1|reflexivity|auto].
    + unfold bind, ret. cbn [snd vs_chain]. set (w2 := addLog w1 (vs_id s1) Failure). set (s2 := VS _ _ _ _ _).
      assert (Ef1 : firstn (0 + length ch1) (vs_chain s1) = ch1) by (rewrite Ec; cbn [plus]; rewrite firstn_app, Nat.sub_diag, firstn_all, app_nil_r; reflexivity). rewrite Ef1.
      destruct (cacheAll_ok ch1 w2 s2) as (w3 & E3 & S3 & Sm3); [eapply stor_ext; [exact S1|reflexivity..]| |].
      { intros c Ic. split; [|eapply chased_chain; [apply L1|rewrite Ec; apply in_or_app; left; exact Ic]]. eapply (links_signed ch1 ch2 j0 t r rs); eauto. rewrite <- Ec. apply L1. }
      rewrite E3. destruct Sm1 as (X1 & X2 & X3 & X4), Sm3 as (Y1 & Y2 & Y3 & Y4). cbn. split; [exact S3|]. split; [etransitivity; [exact Y3|exact X3]|]. split; [etransitivity; [exact Y4|exact X4]|]. split; [reflexivity|].
      left. exists Failure. split; [rewrite Y1; cbn [w2 addLog w_log]; rewrite X1; reflexivity|]. split; [rewrite Y2; exact X2|]. intros [=].
  - eapply Res_weaken; [eapply (fetch_ok _ IH w1 s1 r rs j0 3 0); try eassumption; [destruct Sm1 as (_ & _ & _ & X); congruence|cbn; lia|lia]|exact Sm1|reflexivity|].
    intros pd [[A B]|[A B]]; (split; [exact A|]); [rewrite B; cbn; lia|cbn in B; lia].
  - eapply Res_weaken; [apply (Res_err (atleast s) w1 s1 e); [exact S1|apply L1]|exact Sm1|reflexivity|auto].
Qed.

Lemma validate_ok : forall p w, stor (S k) w -> w_event w = k -> ev = EValidate now p -> starts k = w_next w ->
  let s := VS (w_next w) p [] [] None in
  let w1 := W (w_tc w) (w_ver w) (w_unv w) (w_log w) (w_pend w) (S (w_next w)) (w_event w) in
  Res (fun pd => pd_retries pd = 3) w1 s (validate now (w1, s)).
Proof.
  intros p w S Ek Eev Es s w1. assert (S1 : stor (Datatypes.S k) w1) by (eapply stor_ext; [exact S|reflexivity..]). unfold ValModel.validate. cbn [fst snd]. change (w_event w1) with (w_event w). rewrite Ek. cbn [s vs_packet].
  destruct (pol k p) as [|[r|]|e|] eqn:Ep; [apply Res_fail; [exact S1|reflexivity]| | |apply Res_err; [exact S1|reflexivity]|apply Res_silent; exact S1].
  - eapply Res_weaken; [apply (request_ok (enough maxDepth)) with (r := r) (rs := []) (j0 := k); [exact S1|exact Ek| |reflexivity|constructor]|now (unfold same; auto)|reflexivity|].
    + constructor; cbn [s vs_outcome vs_packet vs_id vs_chain]; [reflexivity|exists now; rewrite Hk, Eev; reflexivity|exact Es|lia|reflexivity|]. eapply Ch_start; [lia|rewrite Hk, Eev; reflexivity|exact Ep].
    + intros pd [A _]. exact A.
  - cbn. split; [eapply stor_ext; [exact S1|reflexivity..]|]. repeat (split; [reflexivity|]). left. exists Success. split; [reflexivity|]. split; [reflexivity|]. intros _. exists k, now, p. split; [lia|]. split; [rewrite Hk, Eev; reflexivity|]. split; [exact Es|]. left. exact Ep.
Qed.
Lemma caught : forall Q w s out, Res Q w s out -> exists w' s', (match out with (st', Err _) => fail st' | (st', Ok _) => (st', Ok tt) end) = ((w', s'), Ok tt) /\ Res Q w s ((w', s'), Ok tt).
Proof.
  intros Q w s [[w2 s2] [u|e]] R.
  - exists w2, s2. split; [reflexivity|exact R].
  - destruct R as (S & N & E & Id & R1 & R2 & R3). rewrite fail_ok by exact R3. eexists _, _. split; [reflexivity|]. cbn. split; [eapply stor_ext; [exact S|reflexivity..]|]. split; [exact N|]. split; [exact E|]. split; [exact Id|].
    left. exists Failure. split; [rewrite R1, Id; reflexivity|]. split; [exact R2|]. intros [=].
Qed.
Lemma onData_ok : forall w pd c, stor (S k) w -> w_event w = k -> pend_ok (S k) pd -> i_matches (pd_req pd) c = true ->
  exists w' s', onData now (pd_layers pd) c (w, pd_state pd) = ((w', s'), Ok tt) /\
  Res (fun q => pd_retries q = 3 /\ zlen (vs_chain (pd_state pd)) < zlen (vs_chain (pd_state q))) w (pd_state pd) ((w', s'), Ok tt).
Proof.
  intros w pd c S Ek (j0 & rs & L & Es & Nd & D & Lr) M. unfold ValModel.onData. destruct (ct_check c) as [[]|e] eqn:Ec.
  - apply caught. destruct (cacheLayers_ok (pd_layers pd) w (pd_state pd) c S) as (w2 & r2 & E2 & S2 & Sm). unfold bind. rewrite E2. destruct r2 as [x|e].
    + eapply Res_weaken; [eapply validateCertificate_ok; [apply request_ok|exact S2|destruct Sm as (_ & _ & _ & X); congruence|exact L|exact Es|exact Nd|exact M]|exact Sm|reflexivity|auto].
    + eapply Res_weaken; [eapply Res_err; [exact S2|apply L]|exact Sm|reflexivity|]. intros q Q. exact Q.
  - pose proof (Res_fail (fun q => pd_retries q = 3 /\ zlen (vs_chain (pd_state pd)) < zlen (vs_chain (pd_state q))) w (pd_state pd) S (lv_out _ _ _ _ _ L)) as R. rewrite fail_ok in * by apply L. eauto.
Qed.
Lemma onTimeout_ok : forall w pd, stor (S k) w -> w_event w = k -> pend_ok (S k) pd ->
  exists w' s', onTimeout now (pd_req pd) (pd_retries pd) (pd_layers pd) (w, pd_state pd) = ((w', s'), Ok tt) /\
  Res (advance (pd_retries pd - 1) (pd_state pd)) w (pd_state pd) ((w', s'), Ok tt).
Proof.
  intros w pd S Ek (j0 & rs & L & Es & Nd & D & Lr). unfold ValModel.onTimeout. cbv zeta. destruct (0 <=? pd_retries pd - 1) eqn:E.
  - apply caught. eapply fetch_ok; try eassumption; [apply request_ok|lia].
  - pose proof (Res_fail (advance (pd_retries pd - 1) (pd_state pd)) w (pd_state pd) S (lv_out _ _ _ _ _ L)) as R. rewrite fail_ok in * by apply L. eauto.
Qed.
End Event.

(** ** All events *)
Lemma accepted_S : forall k c r, accepted k c r -> accepted (S k) c r.
Proof. intros k c r (j & e & now & nb & na & L & X). exists j, e, now, nb, na. split; [lia|exact X]. Qed.
Lemma chased_S : forall k j0 chain reqs, chased k j0 chain reqs -> chased (S k) j0 chain reqs.
Proof. intros k j0 chain reqs Ch. induction Ch as [now p r L E Ep|c chain r r' rs Ch IH M A]; [apply (Ch_start _ _ _ _ _ _ (S k) j0 now p r); [lia|exact E|exact Ep]|apply Ch_next; [exact IH|exact M|apply accepted_S; exact A]]. Qed.
Lemma pend_ok_S : forall k pd, pend_ok k pd -> pend_ok (S k) pd.
Proof.
  intros k pd (j0 & rs & [L1 L2 L3 L4 L5 L6] & X). exists j0, rs. split; [|exact X]. constructor; auto. apply chased_S; exact L6.
Qed.
Lemma justified_S : forall k i, justified k i -> justified (S k) i.
Proof.
  intros k i (j0 & now0 & p & L & E & Es & [B|(j & e & now & chain & r & rs & root & Lj & X)]); exists j0, now0, p; (split; [lia|]); (split; [exact E|]); (split; [exact Es|]); [left; exact B|].
  right. exists j, e, now, chain, r, rs, root. split; [lia|exact X].
Qed.
Definition pid (pd : pending) : nat := vs_id (pd_state pd).
(** the number of answers to the validation [i] among the first [k] events *)
Fixpoint answered (h : list (@event P C)) (w : world) (i : nat) : Z :=
  match h with [] => 0 | e :: h' => (if answers i_matches w e i then 1 else 0) + answered h' (step w e) i end.
Record winv (k : nat) (w : world) : Prop := Winv {
  wi_stor : stor k w;
  wi_event : w_event w = k;
  wi_next : w_next w = starts k;
  wi_log : forall i, In (i, Success) (w_log w) -> justified k i;
  wi_pend : forall pd, In pd (w_pend w) -> pend_ok k pd;
  wi_ids : Permutation (map fst (w_log w) ++ map pid (w_pend w)) (seq 0 (w_next w)) }.
Lemma removeNth_perm : forall (A : Type) (l : list A) j x, nth_error l j = Some x -> Permutation l (x :: removeNth j l).
Proof.
  intros A l j x E. unfold removeNth. rewrite (CertProofs.nth_split _ _ _ _ E) at 1. apply Permutation_sym, Permutation_middle.
Qed.
Lemma starts_S : forall k e, nth_error H k = Some e -> starts (S k) = (starts k + if is_validate e then 1 else 0)%nat.
Proof.
  intros k e E. unfold ValSpec.starts. assert (X : firstn (S k) H = firstn k H ++ [e]).
  { rewrite (CertProofs.nth_split _ _ _ _ E) at 1. assert (Lk : length (firstn k H) = k) by (rewrite firstn_length; apply nth_error_Some_lt in E || (assert (k < length H)%nat by (apply nth_error_Some; congruence)); lia).
    rewrite firstn_app, Lk. rewrite firstn_all2 by lia. replace (S k - k)%nat with 1%nat by lia. reflexivity. }
  rewrite X, filter_app, app_length. cbn [filter]. destruct (is_validate e); reflexivity.
Qed.
(** the world after an answer or a start *)
Definition bump (w : world) : world := W (w_tc w) (w_ver w) (w_unv w) (w_log w) (w_pend w) (w_next w) (S (w_event w)).
Lemma stor_bump : forall k w, stor k w -> stor k (bump w).
Proof. intros k w S. eapply stor_ext; [exact S|reflexivity..]. Qed.
(** The validation [s] is neither in the log nor among the pending requests of [w], and now it is in one. *)
Lemma Res_winv : forall k Q w s w' s' r, Res k Q w s ((w', s'), r) -> w_event w = k -> w_next w = starts (S k) ->
  (forall i, In (i, Success) (w_log w) -> justified (S k) i) -> (forall pd, In pd (w_pend w) -> pend_ok (S k) pd) ->
  Permutation (vs_id s :: map fst (w_log w) ++ map pid (w_pend w)) (seq 0 (w_next w)) ->
  winv (S k) (bump (match r with Ok _ => w' | Err e => addLog w' (vs_id s) (Raised e) end)).
Proof.
  intros k Q w s w' s' r (S & N & E & Id & R) Ek Es J Pd Pm.
  assert (Log : forall n l, (n = Success -> justified (Datatypes.S k) (vs_id s)) -> l = w_log w ++ [(vs_id s, n)] -> forall i, In (i, Success) l -> justified (Datatypes.S k) i).
  { intros n l Jn -> i Ii. apply in_app_or in Ii. destruct Ii as [Ii|[[= <- ->]|[]]]; [apply J; exact Ii|apply Jn; reflexivity]. }
  assert (Pl : forall n, Permutation (map fst (w_log w ++ [(vs_id s, n)]) ++ map pid (w_pend w)) (seq 0 (w_next w))).
  { intros n. rewrite <- Pm, map_app. cbn [map fst]. rewrite <- app_assoc. cbn [app]. apply Permutation_sym, Permutation_middle. }
  destruct r as [u|e].
  - destruct R as [(n & L & Pn & Jn)|(pd & Pn & L & Ip & Pk & _)].
    + constructor; cbn [bump w_event w_next w_log w_pend]; [apply stor_bump; exact S|congruence|congruence|eapply Log; eassumption|rewrite Pn; exact Pd|rewrite L, Pn, N; apply Pl].
    + constructor; cbn [bump w_event w_next w_log w_pend]; [apply stor_bump; exact S|congruence|congruence|rewrite L; exact J| |].
      * rewrite Pn. intros q Iq. apply in_app_or in Iq. destruct Iq as [Iq|[<-|[]]]; [apply Pd; exact Iq|exact Pk].
      * rewrite L, Pn, N, <- Pm, map_app. cbn [map]. unfold pid at 2. rewrite Ip. rewrite app_assoc. apply Permutation_sym, Permutation_cons_append.
  - destruct R as (R1 & R2 & _). constructor; cbn [bump addLog w_event w_next w_log w_pend]; [apply stor_bump; eapply stor_ext; [exact S|reflexivity..]|congruence|congruence| |rewrite R2; exact Pd|rewrite R1, R2, N; apply Pl].
    rewrite R1. eapply (Log (Raised e)); [intros [=]|reflexivity].
Qed.
Lemma winv_storage : forall k w w', winv k w -> stor (S k) w' -> same w w' -> starts (S k) = starts k -> winv (S k) (bump w').
Proof.
  intros k w w' [A B D E F G] S (X1 & X2 & X3 & X4) Es. constructor; cbn [bump w_event w_next w_log w_pend]; [apply stor_bump; exact S|congruence|congruence| | |].
  - rewrite X1. intros i Ii. apply justified_S. auto.
  - rewrite X2. intros pd Ip. apply pend_ok_S. auto.
  - rewrite X1, X2, X3. exact G.
Qed.
Lemma stor_anchor : forall k w o, stor k w -> nth_error H k = Some (EAnchor o) -> stor (S k) (setTc w (t_step ct_name ct_check (w_tc w) o)).
Proof.
  intros k w o S E. destruct S as [A B G V M En U].
  assert (Og : AnchorProps.op_good ct_name o).
  { destruct o; cbn; auto; try (intros fs _ c _; apply Nc); [eapply Nr; eapply nth_error_In; exact E|intros id fs _ c _; apply Nc]. }
  assert (Ver : forall n c u, In (n, (c, u)) (cc_dict (w_ver w)) -> verified (Datatypes.S k) c u) by (intros n c u I'; apply verified_S; [eapply En; exact I'|rewrite E; intros [=]]).
  assert (Cl : {o = TClear} + {o <> TClear}) by (destruct o; [right|right|right|right|left]; congruence). destruct Cl as [->|Nt].
  - constructor; cbn [setTc w_tc w_ver w_unv t_step tc_clear tc_anchors tc_groups]; auto; [constructor; [apply AnchorProps.empty_inv|intros id g []]|intros n c []|intros id g []].
  - assert (Nt' : nth_error H k <> Some (EAnchor TClear)) by (rewrite E; intros [= X]; congruence).
    destruct (AnchorProps.step_inv ct_name ct_check (anchor (Datatypes.S k)) (w_tc w) o A Og) as [A' B'].
    + intros n c I'. apply anchor_S; [eapply B; exact I'|exact Nt'].
    + intros c Gc Ec. split; [exact Ec|]. exists k. split; [lia|]. split; [|apply kept_self]. exists (EAnchor o). auto.
    + constructor; cbn [setTc w_tc w_ver w_unv]; auto. intros id g I' D. destruct (step_dyn _ _ _ _ I' D) as [[_ (g' & I0 & D0)]|(p & t & fs & ->)].
      * apply registered_S; [eapply G; eassumption|exact Nt'].
      * exists k, p, t, fs. split; [lia|]. split; [exact E|apply kept_self].
Qed.
Lemma pend_perm : forall k w j pd, winv k w -> nth_error (w_pend w) j = Some pd -> Permutation (pid pd :: map fst (w_log w) ++ map pid (removeNth j (w_pend w))) (seq 0 (w_next w)).
Proof.
  intros k w j pd Wi E. rewrite <- (wi_ids _ _ Wi). rewrite (removeNth_perm _ _ _ _ E) at 2. cbn [map]. apply Permutation_middle.
Qed.
Lemma removeNth_in : forall (A : Type) (l : list A) j x, In x (removeNth j l) -> In x l.
Proof. intros A l j x I'. unfold removeNth in I'. apply in_app_or in I'. destruct I' as [I'|I']; [rewrite <- (firstn_skipn j l); apply in_or_app; left; exact I'|rewrite <- (firstn_skipn (S j) l); apply in_or_app; right; exact I']. Qed.
Lemma step_winv : forall k w e, winv k w -> nth_error H k = Some e -> winv (S k) (step w e).
Proof.
  intros k w e Wi E. pose proof (starts_S _ _ E) as Es. destruct e as [now p|now j c|now j|o|now c|now c|]; cbn [is_validate] in Es; rewrite ?Nat.add_0_r in Es.
  - assert (S1 : stor (S k) w) by (apply stor_S; [apply Wi|rewrite E; intros [=]..]).
    pose proof (validate_ok k (EValidate now p) now E eq_refl p w S1 (wi_event _ _ Wi) eq_refl (eq_sym (wi_next _ _ Wi))) as R. cbv zeta in R. unfold ValModel.step.
    destruct (validate now (W (w_tc w) (w_ver w) (w_unv w) (w_log w) (w_pend w) (S (w_next w)) (w_event w), VS (w_next w) p [] [] None)) as [[w2 s2] r]. destruct Wi as [W1 W2 W3 W4 W5 W6].
    pose proof (Res_winv k _ _ _ _ _ _ R) as Rw. cbn [vs_id] in Rw. assert (Rw' : winv (S k) (bump match r with Ok _ => w2 | Err e => addLog w2 (w_next w) (Raised e) end)); [|destruct r; exact Rw']. apply Rw; cbn [w_event w_log w_pend w_next]; [exact W2|lia| | |].
    + intros i Ii. apply justified_S. auto.
    + intros pd Ip. apply pend_ok_S. auto.
    + rewrite seq_S. cbn [plus]. rewrite W6. apply Permutation_cons_append.
  - unfold ValModel.step. assert (S1 : stor (S k) w) by (apply stor_S; [apply Wi|rewrite E; intros [=]..]).
    destruct (nth_error (w_pend w) j) as [pd|] eqn:Ej; [|apply (winv_storage k w w Wi S1); [now (unfold same; auto)|exact Es]].
    destruct (i_matches (pd_req pd) c) eqn:Em; [|apply (winv_storage k w w Wi S1); [now (unfold same; auto)|exact Es]].
    pose proof (pend_perm k w j pd Wi Ej) as Pm. pose proof (nth_error_In _ _ Ej) as Ip.
    destruct (onData_ok k _ now E eq_refl (setPend w (removeNth j (w_pend w))) pd c) as (w' & s' & Eo & R); [eapply stor_ext; [exact S1|reflexivity..]|apply Wi|apply pend_ok_S, Wi; exact Ip|exact Em|].
    rewrite Eo. cbn [fst]. destruct Wi as [W1 W2 W3 W4 W5 W6]. pose proof (Res_winv k _ _ _ _ _ _ R) as Rw. apply Rw; cbn [setPend w_event w_next w_log w_pend]; auto.
    + congruence.
    + intros i Ii. apply justified_S. auto.
    + intros q Iq. apply pend_ok_S. apply W5. eapply removeNth_in; exact Iq.
  - unfold ValModel.step. assert (S1 : stor (S k) w) by (apply stor_S; [apply Wi|rewrite E; intros [=]..]).
    destruct (nth_error (w_pend w) j) as [pd|] eqn:Ej; [|apply (winv_storage k w w Wi S1); [now (unfold same; auto)|exact Es]].
    pose proof (pend_perm k w j pd Wi Ej) as Pm. pose proof (nth_error_In _ _ Ej) as Ip.
    destruct (onTimeout_ok k _ now E eq_refl (setPend w (removeNth j (w_pend w))) pd) as (w' & s' & Eo & R); [eapply stor_ext; [exact S1|reflexivity..]|apply Wi|apply pend_ok_S, Wi; exact Ip|].
    rewrite Eo. cbn [fst]. destruct Wi as [W1 W2 W3 W4 W5 W6]. pose proof (Res_winv k _ _ _ _ _ _ R) as Rw. apply Rw; cbn [setPend w_event w_next w_log w_pend]; auto.
    + congruence.
    + intros i Ii. apply justified_S. auto.
    + intros q Iq. apply pend_ok_S. apply W5. eapply removeNth_in; exact Iq.
  - apply (winv_storage k w _ Wi); [apply stor_anchor; [apply Wi|exact E]|now (unfold same; auto)|exact Es].
  - apply (winv_storage k w (setVer w (fst (cc_insert ct_name ct_notAfter ct_check (w_ver w) now c))) Wi); [|now (unfold same; auto)|exact Es].
    assert (S1 : stor (S k) w) by (apply stor_S; [apply Wi|rewrite E; intros [=]..]). destruct (CertProps.insert_inv ct_name ct_notAfter ct_check (w_ver w) now c (st_v _ _ S1) (Nc c)) as (V & M & Ent).
    pose proof (st_m _ _ S1) as M0. destruct S1. constructor; cbn [setVer w_tc w_ver w_unv]; auto; [congruence|]. intros n c' u I'. apply Ent in I'. destruct I' as [(T & -> & _ & U)|[_ I']]; [|eapply st_e0; exact I'].
    destruct T as (na1 & E1 & L1 & Ec). destruct U as (na2 & E2 & ->). rewrite E1 in E2. injection E2 as <-. unfold ValModel.ct_notAfter in E1. destruct (ct_period c) as [[nb na]|] eqn:Ep; [|discriminate E1]. injection E1 as ->. rewrite M0.
    exists k, now, nb, na1. split; [lia|]. split; [intros m Lm; lia|]. auto 10.
  - apply (winv_storage k w (setUnv w (fst (cc_insert ct_name ct_notAfter ct_check (w_unv w) now c))) Wi); [|now (unfold same; auto)|exact Es].
    assert (S1 : stor (S k) w) by (apply stor_S; [apply Wi|rewrite E; intros [=]..]). destruct (CertProps.insert_inv ct_name ct_notAfter ct_check (w_unv w) now c (st_u _ _ S1) (Nc c)) as (V & _). destruct S1. constructor; auto.
  - apply (winv_storage k w (setVer w (cc_clear (w_ver w))) Wi); [|now (unfold same; auto)|exact Es]. destruct Wi as [[A B G V M En U] _ _ _ _ _]. assert (Nt : nth_error H k <> Some (EAnchor TClear)) by (rewrite E; intros [=]).
    constructor; cbn [setVer w_tc w_ver w_unv]; auto.
    + intros n c I'. apply anchor_S; [eapply B; exact I'|exact Nt].
    + intros id g I' D. apply registered_S; [eapply G; eassumption|exact Nt].
    + apply CertProps.clear_inv.
    + intros n c u [].
Qed.
Lemma run_winv : forall k, (k <= length H)%nat -> winv k (run (firstn k H)).
Proof.
  induction k as [|k IH]; intros L.
  - cbn [firstn]. unfold ValModel.run. cbn [fold_left]. constructor; cbn [w_new w_event w_next w_log w_pend]; try reflexivity; try (intros ? []).
    constructor; cbn [w_new w_tc w_ver w_unv]; [constructor; [apply AnchorProps.empty_inv|intros id g []]|intros n c X; destruct X|intros id g X; destruct X|apply CertProps.new_inv|reflexivity|intros n c u X; destruct X|apply CertProps.new_inv].
  - destruct (nth_error H k) as [e|] eqn:E; [|apply nth_error_None in E; lia].
    assert (X : firstn (S k) H = firstn k H ++ [e]).
    { rewrite (CertProofs.nth_split _ _ _ _ E) at 1. assert (Lk : length (firstn k H) = k) by (rewrite firstn_length; lia). rewrite firstn_app, Lk. rewrite firstn_all2 by lia. replace (S k - k)%nat with 1%nat by lia. reflexivity. }
    rewrite X. unfold ValModel.run. rewrite fold_left_app. cbn [fold_left]. apply step_winv; [apply IH; lia|exact E].
Qed.
(** ** The theorems *)
Lemma at_end : winv (length H) (run H).
Proof. rewrite <- (firstn_all H) at 2. apply run_winv. lia. Qed.

(** The success callback of a validation is called only when the policy let the packet pass
    without a check, or when there is a chain of certificates, each accepted by the policy and
    within its validity period when it was, from the packet up to a certificate trusted at that
    time, with good signatures all the way, fewer than maxDepth, and no Interest name twice. *)
Theorem C42_sound : forall i, In (i, Success) (w_log (run H)) -> justified (length H) i.
Proof. intros i Ii. apply (wi_log _ _ at_end). exact Ii. Qed.
(** Each validation has exactly one outcome: success, failure, an exception from validate, a
    policy that does nothing, or one pending request, and never two of these. *)
Theorem C42_outcome : Permutation (map fst (w_log (run H)) ++ map pid (w_pend (run H))) (seq 0 (length (filter is_validate H))).
Proof.
  pose proof (wi_ids _ _ at_end) as X. rewrite (wi_next _ _ at_end) in X. unfold ValSpec.starts in X. rewrite firstn_all in X. exact X.
Qed.
Corollary C42_once : NoDup (map fst (w_log (run H))) /\ (forall pd, In pd (w_pend (run H)) -> ~ In (pid pd) (map fst (w_log (run H)))) /\
  (forall i, (i < length (filter is_validate H))%nat -> In i (map fst (w_log (run H))) \/ exists pd, In pd (w_pend (run H)) /\ pid pd = i).
Proof.
  pose proof C42_outcome as X. assert (N : NoDup (map fst (w_log (run H)) ++ map pid (w_pend (run H)))) by (eapply Permutation_NoDup; [apply Permutation_sym, X|apply seq_NoDup]).
  split; [|split].
  - revert N. generalize (map fst (w_log (run H))). intros l N. induction l as [|x l IH]; [constructor|]. inversion N; subst. constructor; [|auto]. intros Y. apply H2. apply in_or_app. left. exact Y.
  - intros pd Ip Y. revert N Y. generalize (map fst (w_log (run H))). intros l N Y. induction l as [|x l IH]; [destruct Y|]. inversion N; subst. destruct Y as [->|Y]; [|auto]. apply H2. apply in_or_app. right. apply in_map. exact Ip.
  - intros i Li. assert (Ii : In i (map fst (w_log (run H)) ++ map pid (w_pend (run H)))) by (eapply Permutation_in; [apply Permutation_sym, X|apply in_seq; lia]). apply in_app_or in Ii. destruct Ii as [Ii|Ii]; [left; exact Ii|]. right. apply in_map_iff in Ii. destruct Ii as (pd & E & Ip). eauto.
Qed.
(** In the verified cache there are only trusted certificates. *)
Theorem C42_cache : forall n c u, In (n, (c, u)) (cc_dict (w_ver (run H))) -> forall now, now < u -> trusted (length H) now c.
Proof. intros n c u I' now L. eapply verified_trusted; [|exact L]. eapply st_e; [apply at_end|exact I']. Qed.
(** ** The number of answers *)
Definition mu (pd : pending) : Z := 4 * (maxDepth - zlen (vs_chain (pd_state pd))) + pd_retries pd - 3.
Lemma mu_pos : forall k pd, pend_ok k pd -> 0 < mu pd.
Proof. intros k pd (j0 & rs & _ & _ & _ & D & Lr). unfold mu. lia. Qed.
(** what an event does to the pending requests *)
Definition shape (w w' : world) (e : @event P C) : Prop :=
  (w_next w' = w_next w /\ w_pend w' = w_pend w /\ (forall i, answers i_matches w e i = false)) \/
  (w_next w' = S (w_next w) /\ (forall i, answers i_matches w e i = false) /\ (w_pend w' = w_pend w \/ exists q, w_pend w' = w_pend w ++ [q] /\ pid q = w_next w /\ pd_retries q = 3)) \/
  (w_next w' = w_next w /\ exists j pd, nth_error (w_pend w) j = Some pd /\ (forall i, answers i_matches w e i = (pid pd =? i)%nat) /\
    (w_pend w' = removeNth j (w_pend w) \/ exists q, w_pend w' = removeNth j (w_pend w) ++ [q] /\ pid q = pid pd /\ mu q < mu pd)).
Lemma step_shape : forall k w e, winv k w -> nth_error H k = Some e -> shape w (step w e) e.
Proof.
  intros k w e Wi E. destruct e as [now p|now j c|now j|o|now c|now c|]; try (left; split; [reflexivity|split; reflexivity]).
  - assert (S1 : stor (S k) w) by (apply stor_S; [apply Wi|rewrite E; intros [=]..]).
    pose proof (validate_ok k (EValidate now p) now E eq_refl p w S1 (wi_event _ _ Wi) eq_refl (eq_sym (wi_next _ _ Wi))) as R. cbv zeta in R. unfold ValModel.step.
    destruct (validate now (W (w_tc w) (w_ver w) (w_unv w) (w_log w) (w_pend w) (S (w_next w)) (w_event w), VS (w_next w) p [] [] None)) as [[w2 s2] r].
    destruct R as (_ & N & _ & _ & R). cbn [w_next w_pend w_log vs_id] in *. right. left. destruct r as [u|e].
    + split; [exact N|]. split; [reflexivity|]. destruct R as [(n & _ & Pn & _)|(pd & Pn & _ & Ip & _ & Q)]; [left; exact Pn|]. right. exists pd. auto.
    + split; [exact N|]. split; [reflexivity|]. left. apply R.
  - unfold ValModel.step. assert (S1 : stor (S k) w) by (apply stor_S; [apply Wi|rewrite E; intros [=]..]).
    destruct (nth_error (w_pend w) j) as [pd|] eqn:Ej; [|left; split; [reflexivity|]; split; [reflexivity|]; intros i; cbn; rewrite Ej; reflexivity].
    destruct (i_matches (pd_req pd) c) eqn:Em; [|left; split; [reflexivity|]; split; [reflexivity|]; intros i; cbn; rewrite Ej, Em; reflexivity].
    pose proof (nth_error_In _ _ Ej) as Ip. pose proof (pend_ok_S _ _ (wi_pend _ _ Wi pd Ip)) as Pk.
    destruct (onData_ok k _ now E eq_refl (setPend w (removeNth j (w_pend w))) pd c) as (w' & s' & Eo & R); [eapply stor_ext; [exact S1|reflexivity..]|apply Wi|exact Pk|exact Em|].
    rewrite Eo. cbn [fst]. destruct R as (_ & N & _ & _ & R). cbn [setPend w_next w_pend w_log] in *. right. right. split; [exact N|]. exists j, pd. split; [exact Ej|]. split; [intros i; cbn; rewrite Ej, Em; reflexivity|].
    destruct R as [(n & _ & Pn & _)|(q & Pn & _ & Iq & _ & Q1 & Q2)]; [left; exact Pn|]. right. exists q. split; [exact Pn|]. split; [exact Iq|]. destruct Pk as (? & ? & _ & _ & _ & _ & Lr). unfold mu. lia.
  - unfold ValModel.step. assert (S1 : stor (S k) w) by (apply stor_S; [apply Wi|rewrite E; intros [=]..]).
    destruct (nth_error (w_pend w) j) as [pd|] eqn:Ej; [|left; split; [reflexivity|]; split; [reflexivity|]; intros i; cbn; rewrite Ej; reflexivity].
    pose proof (nth_error_In _ _ Ej) as Ip. pose proof (pend_ok_S _ _ (wi_pend _ _ Wi pd Ip)) as Pk.
    destruct (onTimeout_ok k _ now E eq_refl (setPend w (removeNth j (w_pend w))) pd) as (w' & s' & Eo & R); [eapply stor_ext; [exact S1|reflexivity..]|apply Wi|exact Pk|].
    rewrite Eo. cbn [fst]. destruct R as (_ & N & _ & _ & R). cbn [setPend w_next w_pend w_log] in *. right. right. split; [exact N|]. exists j, pd. split; [exact Ej|]. split; [intros i; cbn; rewrite Ej; reflexivity|].
    destruct R as [(n & _ & Pn & _)|(q & Pn & _ & Iq & _ & [[Q1 Q2]|[Q1 Q2]])]; [left; exact Pn| |]; right; exists q; (split; [exact Pn|]); (split; [exact Iq|]); destruct Pk as (? & ? & _ & _ & _ & _ & Lr); unfold mu; rewrite ?Q1, ?Q2; lia.
Qed.
Definition budget (w : world) (i : nat) (b : Z) : Prop :=
  (exists pd, In pd (w_pend w) /\ pid pd = i /\ mu pd <= b) \/ ((w_next w <= i)%nat /\ 4 * maxDepth <= b /\ 0 <= b) \/ ((i < w_next w)%nat /\ (forall pd, In pd (w_pend w) -> pid pd <> i) /\ 0 <= b).
Lemma pend_lt : forall k w pd, winv k w -> In pd (w_pend w) -> (pid pd < w_next w)%nat.
Proof.
  intros k w pd Wi Ip. assert (X : In (pid pd) (seq 0 (w_next w))) by (eapply Permutation_in; [apply (wi_ids _ _ Wi)|]; apply in_or_app; right; apply in_map; exact Ip). apply in_seq in X. lia.
Qed.
Lemma pend_other : forall k w j pd q, winv k w -> nth_error (w_pend w) j = Some pd -> In q (removeNth j (w_pend w)) -> pid q <> pid pd.
Proof.
  intros k w j pd q Wi Ej Iq X. pose proof (pend_perm k w j pd Wi Ej) as Pm. assert (N : NoDup (pid pd :: map fst (w_log w) ++ map pid (removeNth j (w_pend w)))) by (eapply Permutation_NoDup; [apply Permutation_sym, Pm|apply seq_NoDup]).
  inversion N as [|? ? N1 _]; subst. apply N1. apply in_or_app. right. rewrite <- X. apply in_map. exact Iq.
Qed.
Lemma budget_step : forall k w e i b, winv k w -> nth_error H k = Some e -> budget w i b -> budget (step w e) i (b - if answers i_matches w e i then 1 else 0).
Proof.
  intros k w e i b Wi E B. pose proof (step_shape k w e Wi E) as Sh. pose proof (step_winv k w e Wi E) as Wi'. destruct Sh as [(N & Pn & An)|[(N & An & Pn)|(N & j & pd & Ej & An & Pn)]]; rewrite An.
  - unfold budget. rewrite N, Pn, Z.sub_0_r. exact B.
  - unfold budget. rewrite N, Z.sub_0_r. destruct B as [(pd & Ip & Ei & Lm)|[(Li & Lb & L0)|(Li & Np & L0)]].
    + left. exists pd. split; [|auto]. destruct Pn as [->|(q & -> & _)]; [exact Ip|apply in_or_app; left; exact Ip].
    + destruct (Nat.eq_dec i (w_next w)) as [->|Ne]; [|right; left; split; [lia|auto]]. destruct Pn as [Pn|(q & Pn & Iq & Rq)]; rewrite Pn.
      * right. right. split; [lia|]. split; [|exact L0]. intros pd Ip. pose proof (pend_lt k w pd Wi Ip). lia.
      * left. exists q. split; [apply in_or_app; right; left; reflexivity|]. split; [exact Iq|]. unfold mu. rewrite Rq. zlia.
    + right. right. split; [lia|]. split; [|exact L0]. intros pd Ip. destruct Pn as [Pn|(q & Pn & Iq & _)]; rewrite Pn in Ip; [auto|]. apply in_app_or in Ip. destruct Ip as [Ip|[<-|[]]]; [auto|lia].
  - destruct (Nat.eqb_spec (pid pd) i) as [Ei|Ne].
    + assert (Bm : mu pd <= b).
      { destruct B as [(pd' & Ip & Ei' & Lm)|[(Li & _)|(_ & Np & _)]].
        - assert (pd' = pd); [|congruence]. pose proof (removeNth_perm _ _ _ _ Ej) as Pm. apply (Permutation_in _ Pm) in Ip. destruct Ip as [<-|Ip]; [reflexivity|]. exfalso. eapply pend_other; [exact Wi|exact Ej|exact Ip|congruence].
        - pose proof (pend_lt k w pd Wi (nth_error_In _ _ Ej)). lia.
        - exfalso. apply (Np pd); [eapply nth_error_In; exact Ej|exact Ei]. }
      pose proof (mu_pos _ _ (wi_pend _ _ Wi pd (nth_error_In _ _ Ej))) as Mp. unfold budget. rewrite N. destruct Pn as [Pn|(q & Pn & Iq & Mq)]; rewrite Pn.
      * right. right. split; [pose proof (pend_lt k w pd Wi (nth_error_In _ _ Ej)); lia|]. split; [|lia]. intros q Iq X. eapply pend_other; [exact Wi|exact Ej|exact Iq|congruence].
      * left. exists q. split; [apply in_or_app; right; left; reflexivity|]. split; [congruence|lia].
    + unfold budget. rewrite N, Z.sub_0_r. destruct B as [(pd' & Ip & Ei' & Lm)|[B|(Li & Np & L0)]].
      * left. exists pd'. split; [|auto]. assert (Ip' : In pd' (removeNth j (w_pend w))). { pose proof (removeNth_perm _ _ _ _ Ej) as Pm. apply (Permutation_in _ Pm) in Ip. destruct Ip as [<-|Ip]; [congruence|exact Ip]. }
        destruct Pn as [->|(q & -> & _)]; [exact Ip'|apply in_or_app; left; exact Ip'].
      * right. left. exact B.
      * right. right. split; [exact Li|]. split; [|exact L0]. intros q Iq. destruct Pn as [Pn|(q' & Pn & Iq' & _)]; rewrite Pn in Iq; [apply Np; eapply removeNth_in; exact Iq|]. apply in_app_or in Iq. destruct Iq as [Iq|[<-|[]]]; [apply Np; eapply removeNth_in; exact Iq|congruence].
Qed.
Lemma answered_le : forall n k w i b, (n + k = length H)%nat -> winv k w -> budget w i b -> answered (skipn k H) w i <= b.
Proof.
  induction n as [|n IH]; intros k w i b L Wi B.
  - rewrite skipn_all2 by lia. cbn [answered]. destruct B as [(pd & Ip & _ & Lm)|[(_ & _ & X)|(_ & _ & X)]]; [|exact X..]. pose proof (mu_pos _ _ (wi_pend _ _ Wi pd Ip)). lia.
  - destruct (nth_error H k) as [e|] eqn:E; [|apply nth_error_None in E; lia].
    assert (X : skipn k H = e :: skipn (S k) H).
    { rewrite (CertProofs.nth_split _ _ _ _ E) at 1. assert (Lk : length (firstn k H) = k) by (rewrite firstn_length; lia). rewrite skipn_app, Lk, Nat.sub_diag. rewrite skipn_all2 by lia. reflexivity. }
    rewrite X. cbn [answered]. pose proof (IH (S k) (step w e) i (b - if answers i_matches w e i then 1 else 0) ltac:(lia) (step_winv k w e Wi E) (budget_step k w e i b Wi E B)). lia.
Qed.
(** The face is asked, for one validation, for no more than 4 times maxDepth certificates:
    each validation ends after a bounded number of answers. *)
Theorem C42_terminates : forall i, answered H w_new i <= Z.max 0 (4 * maxDepth).
Proof.
  intros i. apply (answered_le (length H) 0 w_new i (Z.max 0 (4 * maxDepth)) ltac:(lia) (run_winv 0 ltac:(lia))). right. left. cbn [w_new w_next]. lia.
Qed.
End History.

(** ** The bound of the recursion *)
Lemma bind_ext : forall (A B : Type) (m : @M P C I A) (k1 k2 : A -> @M P C I B) st, (forall x st', m st = (st', Ok x) -> k1 x st' = k2 x st') -> bind m k1 st = bind m k2 st.
Proof. intros A B m k1 k2 st E. unfold bind. destruct (m st) as [st' [x|e]]; [apply E; reflexivity|reflexivity]. Qed.
Lemma findTrusted_state : forall now r (w : world) (s : vstate), snd (fst (findTrusted now r (w, s))) = s.
Proof.
  intros now r w s. unfold ValModel.findTrusted. destruct (tc_find ct_name ct_check i_name i_matches (w_tc w) now (files (w_event w)) r) as [t [[c|]|e]]; try reflexivity.
  destruct (cc_find ct_name i_name i_matches (w_ver (setTc w t)) now r) as [[v o]|e]; reflexivity.
Qed.
Lemma cacheUnverified_state : forall now c (w : world) (s : vstate), snd (fst (cacheUnverified now c (w, s))) = s.
Proof. intros. unfold ValModel.cacheUnverified. destruct (cc_insert ct_name ct_notAfter ct_check (w_unv w) now c). reflexivity. Qed.
Lemma cacheLayers_state : forall now n c (w : world) (s : vstate), snd (fst (cacheLayers now n c (w, s))) = s.
Proof.
  induction n as [|n IH]; intros c w s; cbn [ValModel.cacheLayers]; [reflexivity|]. unfold bind. pose proof (cacheUnverified_state now c w s) as X. destruct (cacheUnverified now c (w, s)) as [[w1 s1] [u|e]]; cbn [fst snd] in X; subst s1; [apply IH|reflexivity].
Qed.
Lemma validate_ext : forall now (q1 q2 : I -> @M P C I unit) c w s, (forall r w' c', q1 r (w', setChain s (c' :: vs_chain s)) = q2 r (w', setChain s (c' :: vs_chain s))) ->
  validateCertificate now q1 c (w, s) = validateCertificate now q2 c (w, s).
Proof.
  intros now q1 q2 c w s E. unfold ValModel.validateCertificate. apply bind_ext. intros v st' [= <- _]. destruct (negb v); [reflexivity|]. destruct (polc (w_event (fst (w, s))) c) as [|[r|]|e|]; try reflexivity.
  unfold bind, addCertificate. destruct (ct_check c) as [u|e]; [apply E|reflexivity].
Qed.
(** The recursion of the model has enough fuel: with more, the result is the same. *)
Theorem C42_fuel : forall now r w s extra,
  requestCertificate (enough maxDepth + extra) now r (w, s) = requestCertificate (enough maxDepth) now r (w, s).
Proof.
  assert (G : forall f extra now r w s, maxDepth - zlen (vs_chain s) < Z.of_nat f -> requestCertificate (f + extra) now r (w, s) = requestCertificate f now r (w, s) \/ f = O).
  { induction f as [|f IH]; intros extra now r w s L; [right; reflexivity|left]. cbn [plus ValModel.requestCertificate snd]. destruct (maxDepth <=? zlen (vs_chain s)) eqn:Ed; [reflexivity|].
    apply bind_ext. intros b st' Eb. unfold hasSeen in Eb. destruct (in_list (i_name r) (vs_seen s)); injection Eb as <- <-; [reflexivity|]. apply bind_ext. set (s1 := setSeen s (i_name r :: vs_seen s)).
    intros o [w1 s2] Ef. pose proof (findTrusted_state now r w s1) as Fs. rewrite Ef in Fs. cbn [fst snd] in Fs. subst s2. destruct o as [t|]; [reflexivity|].
    unfold ValModel.fetch. destruct (cc_find ct_name i_name i_matches (w_unv w1) now r) as [[u [c|]]|e]; [|reflexivity..]. unfold bind. pose proof (cacheLayers_state now 0 c (setUnv w1 u) s1) as Cs.
    destruct (cacheLayers now 0 c (setUnv w1 u, s1)) as [[w2 s2] [x|e]]; cbn [fst snd] in Cs; subst s2; [|reflexivity]. apply validate_ext. intros r' w' c'.
    assert (Lc : zlen (vs_chain (setChain s1 (c' :: vs_chain s1))) = 1 + zlen (vs_chain s)) by (cbn [setChain vs_chain s1 setSeen]; apply zlen_cons).
    destruct (IH extra now r' w' (setChain s1 (c' :: vs_chain s1))) as [X| ->]; [lia|exact X|]. exfalso. lia. }
  intros now r w s extra. unfold enough. destruct (G (S (Z.to_nat maxDepth)) extra now r w s) as [X|X]; [zlia|exact X|discriminate X].
Qed.
(** ** A chain that arrives is accepted *)
Section Accept.
Variable a : C.
Variable id : Z.
Hypothesis Ca : ct_check a = Ok tt.
Definition t0 : container C := Container [(id, Group [ct_name a] None)] (Anchors [(ct_name a, a)] [ct_name a]).
Lemma insert_a : fst (tc_insert ct_name ct_check tc_new id a) = t0.
Proof.
  unfold tc_insert, t0. cbn [tc_new tc_groups dget g_dynamic tc_anchors]. unfold static_add. cbn [g_names in_list existsb]. unfold ac_add. rewrite Ca. cbn [rbind ac_empty ac_keys in_list existsb ac_dict dset]. rewrite Z.eqb_refl. reflexivity.
Qed.
Lemma find_t0 : forall now f r, exists o, tc_find ct_name ct_check i_name i_matches t0 now f r = (t0, Ok o) /\
  (i_matches r a = false -> o = None) /\ (i_matches r a = true -> (exists rest, ct_name a = i_name r ++ rest) -> o = Some a).
Proof.
  intros now f r. unfold tc_find, tc_refresh. cbn [t0 tc_groups tc_anchors]. rewrite AnchorProps.static_refresh by (intros id' g [[= <- <-]|[]]; reflexivity). cbn [tc_anchors].
  eexists. split; [f_equal; unfold ac_find; cbn [ac_keys ac_dict]|].
  { destruct (bisect_left [ct_name a] (i_name r)) as [|[|n]] eqn:E; cbn [skipn].
    - cbn [tc_find_loop]. unfold dindex. cbn [dget]. rewrite (proj2 (Heqn (ct_name a) (ct_name a) (Nc a) (Nc a)) eq_refl). cbn [rbind].
      instantiate (1 := if n_ltb (ct_name a) (i_name r) then None else if n_isPrefixOf (i_name r) (ct_name a) then if i_matches r a then Some a else None else None).
      assert (X : n_ltb (ct_name a) (i_name r) = false). { unfold bisect_left in E. cbn in E. destruct (n_ltb (ct_name a) (i_name r)); [discriminate E|reflexivity]. } rewrite X.
      destruct (n_isPrefixOf (i_name r) (ct_name a)); cbn [negb]; [|reflexivity]. destruct (i_matches r a); reflexivity.
    - assert (X : n_ltb (ct_name a) (i_name r) = true). { unfold bisect_left in E. cbn in E. destruct (n_ltb (ct_name a) (i_name r)); [reflexivity|discriminate E]. } rewrite X. reflexivity.
    - unfold bisect_left in E. cbn in E. destruct (n_ltb (ct_name a) (i_name r)); discriminate E. }
  split.
  - intros ->. destruct (n_ltb (ct_name a) (i_name r)); [reflexivity|]. destruct (n_isPrefixOf (i_name r) (ct_name a)); reflexivity.
  - intros -> [rest U]. assert (Un : under_name (i_name r) (ct_name a)) by (exists rest; exact U).
    assert (X : n_ltb (ct_name a) (i_name r) = false). { destruct (n_ltb (ct_name a) (i_name r)) eqn:X; [|reflexivity]. apply n_ltb_iff in X. destruct (under_not_lt _ _ Un X). } rewrite X.
    assert (Y : n_isPrefixOf (i_name r) (ct_name a) = true) by (apply isPrefixOf_iff, under_name_values; exact Un). rewrite Y. reflexivity.
Qed.
(** The storage has the trust anchor, no verified certificates, and unverified certificates of
    the chain only. *)
Record fresh (w : world) (chain : list C) : Prop := Fresh {
  fr_tc : w_tc w = t0;
  fr_ver : cinv (w_ver w) /\ cc_dict (w_ver w) = [];
  fr_unv : cinv (w_unv w);
  fr_sub : forall n c u, In (n, (c, u)) (cc_dict (w_unv w)) -> In c chain }.
Notation signs := (signs ver verc).
Notation route := (route ct_period ct_check i_name i_matches ver verc polc maxDepth ct_name).
Lemma findTrusted_fresh : forall now r w s chain, fresh w chain -> exists w' o, findTrusted now r (w, s) = ((w', s), Ok o) /\ fresh w' chain /\ same w w' /\
  (i_matches r a = false -> o = None) /\ (i_matches r a = true -> (exists rest, ct_name a = i_name r ++ rest) -> o = Some a).
Proof.
  intros now r w s chain [F1 [F2 F3] F4 F5]. unfold ValModel.findTrusted. rewrite F1. destruct (find_t0 now (files (w_event w)) r) as (o & E & O1 & O2). rewrite E. destruct o as [c|].
  - exists (setTc w t0), (Some c). split; [reflexivity|]. split; [constructor; auto|]. split; [now (unfold same; auto)|auto].
  - change (w_ver (setTc w t0)) with (w_ver w). destruct (cc_find_ok (w_ver w) now r F2) as (v & o & Ef & V & M & Sub & Fo). rewrite Ef. destruct o as [c|]; [destruct (Fo c eq_refl) as (_ & n & u & X & _); rewrite F3 in X; destruct X|].
    exists (setVer (setTc w t0) v), None. split; [reflexivity|]. split; [|split; [now (unfold same; auto)|auto]]. constructor; cbn [setVer setTc w_tc w_ver w_unv]; auto. split; [exact V|]. destruct (cc_dict v) as [|[n [c u]] d] eqn:Ed; [reflexivity|].
    exfalso. assert (X : In (n, (c, u)) (cc_dict (w_ver w))) by (apply Sub; try rewrite Ed; left; reflexivity). rewrite F3 in X. destruct X.
Qed.
Lemma links_of_signs : forall chain root p, signs root chain p -> links root chain /\ ver p (last chain root) = Ok true.
Proof.
  induction chain as [|c l IH]; intros root p S; cbn [links ValSpec.signs] in *; [auto|]. destruct S as [S1 S2]. destruct (IH c p S2) as [A B]. rewrite last_cons. auto.
Qed.
Lemma verifyLoop_links : forall chain i root (w : world) (s : vstate), links root chain -> verifyLoop i chain root (w, s) = ((w, s), Ok (Some (last chain root))).
Proof.
  induction chain as [|c l IH]; intros i root w s L; cbn [ValModel.verifyLoop]; [reflexivity|]. destruct L as [L1 L2]. unfold bind, lift. rewrite L1. rewrite last_cons. apply IH. exact L2.
Qed.
Lemma cacheAll_log : forall now l (w : world) (s : vstate), (forall c, In c l -> ct_check c = Ok tt /\ exists nb na, ct_period c = Ok (nb, na)) ->
  exists w', cacheAll now l (w, s) = ((w', s), Ok tt) /\ same w w'.
Proof.
  intros now. induction l as [|c l IH]; intros w s F; cbn [ValModel.cacheAll]; [exists w; split; [reflexivity|now (unfold same; auto)]|].
  destruct (F c (or_introl eq_refl)) as (Ec & nb & na & Ep). unfold bind, ValModel.cacheVerified.
  assert (R : snd (cc_insert ct_name ct_notAfter ct_check (w_ver w) now c) = Ok tt).
  { unfold cc_insert, ValModel.ct_notAfter. rewrite Ep. cbn [rbind snd]. destruct (na <? now); [reflexivity|]. rewrite Ec. match goal with |- context [din ?a ?b ?c] => destruct (din a b c) end; reflexivity. }
  destruct (cc_insert ct_name ct_notAfter ct_check (w_ver w) now c) as [v rr]. cbn [snd] in R. subst rr. destruct (IH (setVer w v) s) as (w' & E & Sm); [intros c' I'; apply F; right; exact I'|]. exists w'. split; [exact E|]. eapply same_trans; [|exact Sm]. now (unfold same; auto).
Qed.
Definition chain_ok (chain : list C) : Prop := forall c, In c chain -> ct_check c = Ok tt /\ exists nb na, ct_period c = Ok (nb, na).
(** the request of a route: the success callback, or the next pending request *)
Lemma request_route : forall f now p k r seen chain l w s, (0 < f)%nat -> route a p k r seen chain l -> fresh w chain -> Forall nval seen -> chain_ok chain ->
  online = true -> (forall k' r', express k' r' = None) -> w_pend w = [] -> vs_packet s = p -> vs_chain s = chain -> vs_seen s = seen -> vs_outcome s = None ->
  exists w' s', requestCertificate f now r (w, s) = ((w', s'), Ok tt) /\ w_next w' = w_next w /\ w_event w' = w_event w /\
  match l with
  | [] => w_log w' = w_log w ++ [(vs_id s, Success)] /\ w_pend w' = []
  | _ => w_log w' = w_log w /\ w_pend w' = [Pend (VS (vs_id s) p chain (i_name r :: seen) None) r 3 1] /\ fresh w' chain
  end.
Proof.
  intros f now p k r seen chain l w s Lf Rt Fr Vs Co On Ex Pn E1 E2 E3 E4. destruct f as [|f]; [lia|]. cbn [ValModel.requestCertificate snd]. rewrite E2.
  assert (R0 : ~ In (i_name r) seen /\ zlen chain < maxDepth /\ (forall c, In c chain -> i_matches r c = false)) by (destruct l; cbn [ValSpec.route] in Rt; destruct Rt as (A & B & D & _); auto). destruct R0 as (Ns & D & Nm).
  replace (maxDepth <=? zlen chain) with false by lia. unfold bind at 1. unfold hasSeen. rewrite E3.
  assert (Ei : in_list (i_name r) seen = false). { destruct (in_list (i_name r) seen) eqn:X; [|reflexivity]. apply (AnchorProps.in_list_iff _ _ (Ni r) Vs) in X. contradiction. } rewrite Ei.
  set (s1 := setSeen s (i_name r :: seen)). unfold bind at 1. destruct (findTrusted_fresh now r w s1 chain Fr) as (w1 & o & Ef & Fr1 & (M1 & M2 & M3 & M4) & O1 & O2). rewrite Ef.
  destruct l as [|[[t c] r'] l']; cbn [ValSpec.route] in Rt; destruct Rt as (_ & _ & _ & Rt).
  - destruct Rt as (Ma & U & Sg). rewrite (O2 Ma U). destruct (links_of_signs _ _ _ Sg) as [Lk Vl]. unfold bind, ValModel.verifyCertificateChain. cbn [snd].
    assert (Ech : vs_chain s1 = chain) by (cbn; exact E2). rewrite Ech, (verifyLoop_links chain 0 a w1 s1 Lk). unfold ValModel.verifyOriginalPacket, bind, lift, callback, setOutcome. cbn [snd]. change (vs_packet s1) with (vs_packet s). rewrite E1, Vl.
    change (vs_outcome s1) with (vs_outcome s). rewrite E4. cbn [snd vs_chain]. rewrite Ech. set (w2 := addLog w1 (vs_id s1) Success). set (s2 := VS _ _ _ _ _). destruct (cacheAll_log now chain w2 s2 Co) as (w3 & E & (X1 & X2 & X3 & X4)). rewrite E. exists w3, s2.
    split; [reflexivity|]. split; [rewrite X3; exact M3|]. split; [rewrite X4; exact M4|]. split; [rewrite X1; cbn [w2 addLog w_log]; rewrite M1; reflexivity|rewrite X2; cbn [w2 addLog w_pend]; congruence].
  - destruct Rt as (Ma & _). rewrite (O1 Ma). unfold ValModel.fetch. destruct (cc_find_ok (w_unv w1) now r (fr_unv _ _ Fr1)) as (u & o' & Eu & V & M & Sub & Fo). rewrite Eu.
    destruct o' as [c'|]; [destruct (Fo c' eq_refl) as (Em & n & x & X & _); apply (fr_sub _ _ Fr1) in X; rewrite (Nm _ X) in Em; discriminate Em|].
    unfold ValModel.doFetch. rewrite On, Ex. eexists _, _. split; [reflexivity|]. cbn [setPend setUnv w_next w_event w_log w_pend]. split; [exact M3|]. split; [exact M4|]. split; [exact M1|]. split.
    + rewrite M2, Pn. unfold s1, setSeen. rewrite E1, E2, E4. reflexivity.
    + destruct Fr1 as [A B D' F]. constructor; cbn [setPend setUnv w_tc w_ver w_unv]; auto. intros n c' x X. eapply F. apply Sub. exact X.
Qed.
Lemma data_route : forall p l k r r' seen chain t c w nb na, route a p (S k) r' (i_name r :: seen) (c :: chain) l -> ct_check c = Ok tt -> ct_period c = Ok (nb, na) -> nb <= t <= na -> polc k c = VContinue (Some r') ->
  fresh w chain -> Forall nval seen -> chain_ok chain -> online = true -> (forall k' r', express k' r' = None) -> w_event w = k -> w_log w = [] -> w_pend w = [] ->
  exists w' s', onData t 1 c (w, VS 0 p chain (i_name r :: seen) None) = ((w', s'), Ok tt) /\ w_event w' = k /\ w_next w' = w_next w /\
  match l with [] => w_log w' = [(0%nat, Success)] /\ w_pend w' = [] | _ => w_log w' = [] /\ w_pend w' = [Pend (VS 0 p (c :: chain) (i_name r' :: i_name r :: seen) None) r' 3 1] /\ fresh w' (c :: chain) end.
Proof.
  intros p l k r r' seen chain t c w nb na Rt Ec Eper Lt Epol Fr Vs Co On Ex Ek El Ep. unfold ValModel.onData. rewrite Ec. set (s0 := VS 0 p chain (i_name r :: seen) None).
  destruct (CertProps.insert_inv ct_name ct_notAfter ct_check (w_unv w) t c (fr_unv _ _ Fr) (Nc c)) as (V & M & Ent).
  assert (R : snd (cc_insert ct_name ct_notAfter ct_check (w_unv w) t c) = Ok tt).
  { unfold cc_insert, ValModel.ct_notAfter. rewrite Eper. cbn [rbind snd]. destruct (na <? t); [reflexivity|]. rewrite Ec. match goal with |- context [din ?a ?b ?c] => destruct (din a b c) end; reflexivity. }
  assert (CL : exists v, cacheLayers t 1 c (w, s0) = ((setUnv w v, s0), Ok tt) /\ cinv v /\ (forall n c' u, In (n, (c', u)) (cc_dict v) -> c' = c \/ In (n, (c', u)) (cc_dict (w_unv w)))).
  { cbn [ValModel.cacheLayers]. unfold bind, ValModel.cacheUnverified. destruct (cc_insert ct_name ct_notAfter ct_check (w_unv w) t c) as [v rr]. cbn [fst snd] in *. subst rr. exists v. split; [reflexivity|]. split; [exact V|].
    intros n c' u X. apply Ent in X. destruct X as [(_ & -> & _)|[_ X]]; [left; reflexivity|right; exact X]. }
  destruct CL as (v & Ecl & Vv & Sv). unfold bind at 1. rewrite Ecl.
  assert (Fr1 : fresh (setUnv w v) (c :: chain)).
  { destruct Fr as [A B D' F]. constructor; cbn [setUnv w_tc w_ver w_unv]; auto. intros n c' u X. apply Sv in X. destruct X as [->|X]; [left; reflexivity|right; eapply F; exact X]. }
  destruct (request_route (enough maxDepth) t p (S k) r' (i_name r :: seen) (c :: chain) l (setUnv w v) (setChain s0 (c :: chain))) as (w' & s' & Er & N & Ev & Post); try assumption; try reflexivity; [unfold enough; lia|constructor; [apply Ni|exact Vs]|intros c' [<-|X]; [eauto|apply Co; exact X]|].
  assert (VC : validateCertificate t (requestCertificate (enough maxDepth) t) c (setUnv w v, s0) = ((w', s'), Ok tt)).
  { unfold ValModel.validateCertificate, bind, lift, ct_isValid. rewrite Eper. cbn [rbind fst snd].
    replace ((nb <=? t) && (t <=? na)) with true by (symmetry; apply andb_true_iff; lia). cbn [negb]. cbn [setUnv w_event]. rewrite Ek, Epol. unfold addCertificate. rewrite Ec. exact Er. }
  rewrite VC. exists w', s'. split; [reflexivity|]. split; [rewrite Ev; exact Ek|]. split; [exact N|]. cbn [setUnv w_log vs_id setChain s0] in Post. rewrite El in Post. exact Post.
Qed.
Lemma arrive_all : forall p l k r seen chain w, route a p k r seen chain l -> l <> [] -> fresh w chain -> Forall nval seen -> chain_ok chain ->
  online = true -> (forall k' r', express k' r' = None) -> w_event w = k -> w_log w = [] -> w_pend w = [Pend (VS 0 p chain (i_name r :: seen) None) r 3 1] ->
  w_log (fold_left step (arrivals l) w) = [(0%nat, Success)] /\ w_pend (fold_left step (arrivals l) w) = [].
Proof.
  intros p. induction l as [|[[t c] r'] l IH]; intros k r seen chain w Rt Nl Fr Vs Co On Ex Ek El Ep; [congruence|]. cbn [ValSpec.route] in Rt. destruct Rt as (Ns & D & Nm & Ma & Mc & Ec & (nb & na & Eper & Lt) & Epol & Rt).
  cbn [arrivals map fold_left].
  assert (St : exists w', step w (EData t 0 c) = bump w' /\ w_event w' = k /\ w_next w' = w_next w /\ match l with [] => w_log w' = [(0%nat, Success)] /\ w_pend w' = [] | _ => w_log w' = [] /\ w_pend w' = [Pend (VS 0 p (c :: chain) (i_name r' :: i_name r :: seen) None) r' 3 1] /\ fresh w' (c :: chain) end).
  { destruct (data_route p l k r r' seen chain t c (setPend w []) nb na) as (w' & s' & Eo & Ev & N & Post); try assumption; try reflexivity; [destruct Fr; constructor; auto|].
    exists w'. split; [|auto]. unfold ValModel.step. rewrite Ep. cbn [nth_error pd_req pd_layers pd_state]. rewrite Mc. cbn [removeNth firstn skipn app]. rewrite Eo. reflexivity. }
  destruct St as (w' & Es & Ev & N & Post). rewrite Es. destruct l as [|x l'].
  - cbn [fold_left map]. exact Post.
  - destruct Post as (P1 & P2 & P3). apply (IH (S k) r' (i_name r :: seen) (c :: chain) (bump w')); cbn [bump w_event w_log w_pend]; try assumption; [intros [=]|destruct P3; constructor; auto|constructor; [apply Ni|exact Vs]|intros c' [<-|X]; [eauto|apply Co; exact X]|lia].
Qed.
(** A packet whose chain arrives from the network, certificate by certificate, up to a trust
    anchor, is accepted: its success callback is the only call, and nothing is left pending. *)
Theorem C42_accepts : forall now p r l, online = true -> (forall k r', express k r' = None) -> pol 1 p = VContinue (Some r) -> route a p 2 r [] [] l ->
  let w := run (EAnchor (TInsert id a) :: EValidate now p :: arrivals l) in w_log w = [(0%nat, Success)] /\ w_pend w = [].
Proof.
  intros now p r l On Ex Ep Rt. cbv zeta. unfold ValModel.run. cbn [fold_left].
  assert (E1 : step w_new (EAnchor (TInsert id a)) = bump (setTc w_new t0)) by (unfold ValModel.step; cbn [t_step w_new w_tc]; rewrite insert_a; reflexivity). rewrite E1.
  set (w1 := bump (setTc w_new t0)).
  assert (Fr : fresh (W (w_tc w1) (w_ver w1) (w_unv w1) (w_log w1) (w_pend w1) 1 (w_event w1)) []).
  { constructor; cbn; [reflexivity|split; [apply CertProps.new_inv|reflexivity]|apply CertProps.new_inv|intros n c u []]. }
  destruct (request_route (enough maxDepth) now p 2 r [] [] l _ (VS 0 p [] [] None) ltac:(unfold enough; lia) Rt Fr) as (w' & s' & Er & N & Ev & Post); try reflexivity; try assumption; [constructor|intros c []|].
  assert (E2 : step w1 (EValidate now p) = bump w').
  { unfold ValModel.step. assert (V : validate now (W (w_tc w1) (w_ver w1) (w_unv w1) (w_log w1) (w_pend w1) (S (w_next w1)) (w_event w1), VS (w_next w1) p [] [] None) = ((w', s'), Ok tt)); [|rewrite V; reflexivity].
    unfold ValModel.validate. change (w_event (fst (W (w_tc w1) (w_ver w1) (w_unv w1) (w_log w1) (w_pend w1) (S (w_next w1)) (w_event w1), VS (w_next w1) p [] [] None))) with 1%nat. cbn [snd vs_packet]. rewrite Ep. exact Er. }
  rewrite E2. destruct l as [|x l'].
  - cbn [arrivals map fold_left]. cbn [w1 bump setTc w_new w_log] in Post. exact Post.
  - destruct Post as (P1 & P2 & P3). apply (arrive_all p (x :: l') 2 r [] [] (bump w')); try assumption; [intros [=]|destruct P3; constructor; auto|constructor|intros c []|cbn [bump w_event]; rewrite Ev; reflexivity].
Qed.
End Accept.
End C42.

(** ** An instance: the certificate c is signed with the key of c + 1, a packet with that of 1 *)
Definition exk (c : Z) : name := [c_generic [c mod 256]].
Definition exper (c : Z) : res (Z * Z) := Ok (0, 50 * c).
Definition exok (c : Z) : res unit := Ok tt.
Definition exver (p : Z) (c : Z) : res bool := Ok ((c =? 1) && (p =? 7)).
Definition exverc (c t : Z) : res bool := Ok (t =? c + 1).
Definition expol (k : nat) (p : Z) : verdict Z := if p =? 9 then VContinue None else VContinue (Some 1).
Definition expolc (k : nat) (c : Z) : verdict Z := VContinue (Some (c + 1)).
Definition exrun (depth : Z) (h : list (@event Z Z)) := run exk exper exok exk Z.eqb exver exverc expol expolc (fun _ _ => None) (fun _ _ => Ok []) true depth h.
Lemma exk_val : forall c, nval (exk c).
Proof. intros c. unfold nval, exk. repeat constructor; cbn; try lia; try apply Z.mod_pos_bound; lia. Qed.
(** the packet 7, two certificates from the network, the trust anchor 3 *)
Definition exh : list (@event Z Z) := [EAnchor (TInsert 0 3); EValidate 20 7; EData 30 0 1; EData 60 0 2].
Example C42_ex_accepts : w_log (exrun 25 exh) = [(0%nat, Success)] /\ w_pend (exrun 25 exh) = [].
Proof. vm_compute. auto. Qed.
Example C42_ex_route : route exper exok exk Z.eqb exver exverc expolc 25 exk 3 7 2 1 [] [] [(30, 1, 2); (60, 2, 3)].
Proof.
  cbn [route]. repeat match goal with |- _ /\ _ => split | |- exists nb na, _ => eexists _, _ | |- ~ _ => vm_compute; intuition congruence end; try reflexivity; try (vm_compute; congruence); try (vm_compute; intuition congruence).
  all: try (intros c [<-|[<-|[]]]; reflexivity); try (intros c [<-|[]]; reflexivity); try (intros c []); try (cbn; lia). exists []. reflexivity.
Qed.
(** a wrong packet is refused, and so is the right one at depth 2, or with a missing certificate *)
Example C42_ex_refuses : w_log (exrun 25 [EAnchor (TInsert 0 3); EValidate 20 8; EData 30 0 1; EData 60 0 2]) = [(0%nat, Failure)] /\
  w_log (exrun 2 exh) = [(0%nat, Failure)] /\
  w_log (exrun 25 [EAnchor (TInsert 0 3); EValidate 20 7; EData 30 0 1; ETimeout 40 0; ETimeout 50 0; ETimeout 60 0; ETimeout 70 0]) = [(0%nat, Failure)] /\
  w_log (exrun 25 [EValidate 20 9]) = [(0%nat, Success)] /\
  answered exk exper exok exk Z.eqb exver exverc expol expolc (fun _ _ => None) (fun _ _ => Ok []) true 25 exh w_new 0 = 2.
Proof. vm_compute. auto 10. Qed.
(** what C42_sound gives for it *)
Example C42_ex_sound : justified exper exok exk Z.eqb exver exverc expol expolc (fun _ _ => Ok []) 25 exh 4 0.
Proof. apply (C42_sound exk exper exok exk Z.eqb exver exverc expol expolc (fun _ _ => None) (fun _ _ => Ok []) true 25 exk_val exk_val exh); [intros id n X; cbn in X; intuition congruence|]. vm_compute. auto. Qed.

(** ** What does not hold *)
(** A trust anchor is used after the end of its validity period. *)
Theorem C42_anchor_expiry_refuted : ~ (forall now nb na, exper 1 = Ok (nb, na) -> In (0%nat, Success) (w_log (exrun 25 [EAnchor (TInsert 0 1); EValidate now 7])) -> nb <= now <= na).
Proof. intros X. specialize (X 100 0 50 eq_refl). assert (Y : In (0%nat, Success) (w_log (exrun 25 [EAnchor (TInsert 0 1); EValidate 100 7]))) by (vm_compute; auto). specialize (X Y). lia. Qed.
(** A certificate of the chain may have expired while the next ones were fetched: the packet is
    accepted at 60 with the certificate 1 that was valid up to 50. *)
Theorem C42_chain_expiry_refuted : ~ (forall t1 t2 nb na, exper 1 = Ok (nb, na) -> In (0%nat, Success) (w_log (exrun 25 [EAnchor (TInsert 0 3); EValidate 20 7; EData t1 0 1; EData t2 0 2])) -> nb <= t2 <= na).
Proof. intros X. specialize (X 30 60 0 50 eq_refl). assert (Y : In (0%nat, Success) (w_log (exrun 25 exh))) by (vm_compute; auto). specialize (X Y). lia. Qed.
(** After resetAnchors, packets are still accepted with the certificates verified before. *)
Theorem C42_reset_refuted : ~ (forall h now p, ~ In (1%nat, Success) (w_log (exrun 25 (h ++ [EAnchor TClear; EValidate now p])))).
Proof. intros X. apply (X [EAnchor (TInsert 0 3); EValidate 20 7; EData 30 0 1; EData 40 0 2] 45 7). vm_compute. auto. Qed.
(** ... but not after resetVerifiedCertificates as well. *)
Example C42_ex_reset : w_log (exrun 25 [EAnchor (TInsert 0 3); EValidate 20 7; EData 30 0 1; EData 40 0 2; EAnchor TClear; EReset; EValidate 45 7; EData 46 0 1]) = [(0%nat, Success)].
Proof. vm_compute. reflexivity. Qed.

Print Assumptions C42_sound.
Print Assumptions C42_outcome.
Print Assumptions C42_once.
Print Assumptions C42_cache.
Print Assumptions C42_terminates.
Print Assumptions C42_fuel.
Print Assumptions C42_accepts.
Print Assumptions C42_anchor_expiry_refuted.
Print Assumptions C42_chain_expiry_refuted.
Print Assumptions C42_reset_refuted.
