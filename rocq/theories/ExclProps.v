(** * C81 Adding ranges to an Exclude filter *)
From Verif Require Import Base BaseLemmas NameModel NameSpec NameProofs WireModel MatchModel MatchSpec MatchProofs MatchProps ExclModel ExclSpec ExclProofs.
From Coq Require Import Sorted.

Lemma ordered_valid : forall es, ordered es -> ex_valid es.
Proof.
  intros es (R & _ & _) c I. rewrite Forall_forall in R. apply R. unfold listed. apply in_flat_map. exists (ExComp c). split; [exact I|left; reflexivity].
Qed.
Lemma before_cov : forall l1 x m l2 from c, replaced from l1 x m -> le_k x from -> all_gt l2 from -> lt_k c from -> (cov (l1 ++ (x, true) :: l2) c <-> cov (l1 ++ m ++ l2) c).
Proof.
  intros l1 x m l2 from c Rp Lx G Lc. assert (Gc : all_gt l2 c) by (eapply all_gt_le; [exact G|left; exact Lc]).
  change ((x, true) :: l2) with ([(x, true)] ++ l2). rewrite !app_assoc. rewrite (cov_gt (l1 ++ [(x, true)]) l2 c Gc), (cov_gt (l1 ++ m) l2 c Gc). destruct Rp as [-> |[(-> & E)|(-> & -> & _)]]; [apply iff_refl| |].
  - assert (Lcx : lt_k c x) by (unfold lt_k in *; rewrite E; exact Lc). rewrite !cov_skip by exact Lcx. tauto.
  - rewrite cov_skip by exact Lc. rewrite app_nil_r. tauto.
Qed.
Lemma sorted_sub : forall l1 m l2, esorted (l1 ++ m ++ l2) -> esorted (l1 ++ l2).
Proof.
  intros l1 m l2. unfold esorted. rewrite !map_app, !sorted_app. intros (A & (B & C & D) & E). split; [exact A|]. split; [exact C|]. intros a b I J. apply E; [exact I|apply in_or_app; right; exact J].
Qed.

(** excludeAfter adds everything from a component on. *)
Theorem C81_after : forall es from, ordered es -> regular from -> let es' := excludeAfter es from in
  ordered es' /\ forall c, regular c -> exists b, ex_matches es' c = Ok b /\ (b = true <-> excluded es c \/ le_k from c).
Proof.
  intros es from O Rf es'. destruct (get_shape es O) as [S R]. unfold es', excludeAfter. destruct (putFrom_ok (getExcludeEntries es) from S R Rf) as (l1 & x & m & l2 & E & -> & Lx & G & Rp & S' & R').
  assert (D : l_del (zlen l1 + 1) (zlen (l1 ++ (x, true) :: l2)) (l1 ++ (x, true) :: l2) = l1 ++ [(x, true)]).
  { replace (l1 ++ (x, true) :: l2) with ((l1 ++ [(x, true)]) ++ l2 ++ []) by (rewrite app_nil_r, <- app_assoc; reflexivity). rewrite !zlen_app. change (zlen [(x, true)]) with 1. change (zlen []) with 0. rewrite Z.add_0_r. replace (zlen l1 + 1) with (zlen (l1 ++ [(x, true)])) by (rewrite zlen_app; reflexivity). rewrite del_at, app_nil_r. reflexivity. }
  rewrite D. assert (S2 : esorted (l1 ++ [(x, true)])). { unfold esorted in *. rewrite map_app in *. cbn [map fst] in *. rewrite sorted_app in *. destruct S' as (A & B & C). split; [exact A|]. split; [constructor; constructor|]. intros a b I [<- |[]]. apply C; [exact I|left; reflexivity]. }
  assert (R2 : eregular (l1 ++ [(x, true)])). { unfold eregular in *. rewrite map_app in *. cbn [map fst] in *. rewrite Forall_app in *. destruct R' as [A B]. inversion B; subst. split; [exact A|constructor; [assumption|constructor]]. }
  split; [apply set_ordered; assumption|]. intros c (Vc & Ec & _). destruct (C14_total (setExcludeEntries (l1 ++ [(x, true)])) c Vc (ordered_valid _ (set_ordered _ S2 R2)) (set_wf _)) as (b & Eb & Hb). exists b. split; [exact Eb|]. rewrite Hb, set_cov by assumption. rewrite <- (get_cov es c O Ec), E.
  destruct (le_or_lt from c) as [L|L].
  - split; [auto|]. intros _. apply (cov_last l1 x true [] c); [constructor|eapply le_tra; eassumption|right; reflexivity].
  - rewrite <- (before_cov l1 x m l2 from c Rp Lx G L). change ((x, true) :: l2) with ([(x, true)] ++ l2). rewrite app_assoc, (cov_gt (l1 ++ [(x, true)]) l2 c) by (eapply all_gt_le; [exact G|left; exact L]). split; [auto|]. intros [H|H]; [exact H|elim (lt_not_le _ _ L H)].
Qed.


(** ** excludeRange *)
Lemma bump : forall c, regular c -> exists d, regular d /\ lt_k c d.
Proof.
  intros c (V & L & _). exists (Comp (c_type c) (c_other c) (c_value c ++ [0])). assert (Lt : lt_k c (Comp (c_type c) (c_other c) (c_value c ++ [0]))).
  { unfold lt_k, key_lt, c_key, c_code. cbn [fst snd c_type c_other c_value]. right. split; [reflexivity|]. left. rewrite zlen_app. change (zlen [0]) with 1. lia. }
  split; [|exact Lt]. split; [|split].
  - destruct V as [V T]. split; [cbn; unfold bytes_ok in *; apply Forall_app; split; [exact V|constructor; [unfold is_byte; lia|constructor]]|exact T].
  - left. eapply le_lt; eassumption.
  - cbn. intros E. apply app_eq_nil in E. destruct E as [_ E]. discriminate E.
Qed.
Lemma sorted_mid : forall A x to q, esorted (A ++ (x, true) :: q) -> lt_k x to -> all_gt q to -> esorted (A ++ (x, true) :: (to, false) :: q).
Proof.
  intros A x to q S L G. unfold esorted in *. rewrite map_app in *. cbn [map fst] in *. rewrite sorted_app in *. destruct S as (S1 & S2 & S3). inversion S2 as [|? ? S4 S5]; subst.
  assert (Gq : Forall (lt_k to) (map fst q)) by (clear -G; unfold all_gt in G; induction G; cbn [map]; constructor; assumption).
  split; [exact S1|]. split.
  - constructor; [constructor; assumption|]. constructor; assumption.
  - intros a b I [<- |[<- |J]]; [apply S3; [exact I|left; reflexivity]|eapply lt_tra; [apply S3; [exact I|left; reflexivity]|exact L]|apply S3; [exact I|right; exact J]].
Qed.
(** The entries after the whole operation: [l1], the entry of "from", what stands for "to", and the
    later entries *)
Lemma range_entries : forall l from to l1 x l2, putFrom l from = (l1 ++ (x, true) :: l2, zlen l1) -> le_k x from -> all_gt l2 from -> lt_k from to -> regular to ->
  esorted (l1 ++ (x, true) :: l2) -> eregular (l1 ++ (x, true) :: l2) ->
  exists p q X, l2 = p ++ q /\ all_le p to /\ all_gt q to /\ 
    (p = [] /\ X = [(to, false)] \/ (exists p' y, p = p' ++ [(y, false)]) /\ X = [(to, false)] \/ (exists p' y, p = p' ++ [(y, true)]) /\ X = []) /\
    (let iFoundTo := findEntryBeforeOrAt (l1 ++ (x, true) :: l2) to in
     (if iFoundTo =? zlen l1 then l_insert (zlen l1 + 1) (to, false) (l1 ++ (x, true) :: l2)
      else match nth_error (l1 ++ (x, true) :: l2) (Z.to_nat iFoundTo) with
           | None => l1 ++ (x, true) :: l2
           | Some (c, any) =>
            let '(l2', iRemoveEnd) :=
              if negb any then
                if c_equals c to then (l1 ++ (x, true) :: l2, iFoundTo) else (l_insert (iFoundTo + 1) (to, false) (l1 ++ (x, true) :: l2), iFoundTo + 1)
              else (l1 ++ (x, true) :: l2, iFoundTo + 1) in
            l_del (zlen l1 + 1) iRemoveEnd l2'
           end)) = l1 ++ (x, true) :: X ++ q.
Proof.
  intros l from to l1 x l2 _ Lx G Lt Rt S R. destruct (find_le l2 to 0 ltac:(lia)) as (p & q & -> & A & B & _). { unfold esorted in *. rewrite map_app in S. cbn [map] in S. apply sorted_app in S. destruct S as (_ & S & _). inversion S; assumption. }
  assert (Lxt : lt_k x to) by (eapply le_lt; eassumption).
  assert (F : findEntryBeforeOrAt (l1 ++ (x, true) :: p ++ q) to = zlen l1 + zlen p).
  { unfold findEntryBeforeOrAt. destruct (find_le (l1 ++ (x, true) :: p ++ q) to 0 ltac:(lia) S) as (k1 & k2 & E & A' & B' & ->).
    assert (K : k1 = l1 ++ (x, true) :: p). 2: { subst k1. assert (N : l1 ++ (x, true) :: p <> []) by (destruct l1; discriminate). destruct (l1 ++ (x, true) :: p) eqn:Ek; [congruence|]. rewrite <- Ek. rewrite zlen_app, zlen_cons. lia. }
    assert (E' : k1 ++ k2 = (l1 ++ (x, true) :: p) ++ q) by (rewrite <- E, <- app_assoc; reflexivity).
    assert (A2 : all_le (l1 ++ (x, true) :: p) to).
    { unfold all_le. apply Forall_app. split; [|constructor; [left; exact Lxt|exact A]]. unfold esorted in S. rewrite map_app in S. cbn [map fst] in S. apply sorted_app in S. destruct S as (_ & _ & S). apply Forall_forall. intros e I. left. eapply lt_tra; [apply S; [apply in_map; exact I|left; reflexivity]|exact Lxt]. }
    clear -E' A' B' A2 B. revert k1 E' A'. generalize dependent (l1 ++ (x, true) :: p). intros h A2. induction h as [|e h IH]; intros k1 E' A'.
    - destruct k1 as [|e k1]; [reflexivity|]. cbn [app] in E'. subst q. inversion A'; inversion B; subst. exfalso. eapply lt_not_le; eassumption.
    - destruct k1 as [|e' k1]; cbn [app] in E'; [subst k2; inversion A2; inversion B'; subst; exfalso; eapply lt_not_le; eassumption|]. injection E' as <- E'. f_equal. inversion A2; inversion A'; subst. apply IH; assumption. }
  exists p, q. cbv zeta. rewrite F. pose proof (zlen_nonneg _ p).
  assert (EA : l1 ++ (x, true) :: p ++ q = (l1 ++ [(x, true)]) ++ p ++ q) by (rewrite <- app_assoc; reflexivity).
  assert (ZA : zlen (l1 ++ [(x, true)]) = zlen l1 + 1) by (rewrite zlen_app; reflexivity).
  destruct p as [|e0 p0] eqn:Ep.
  - change (zlen (@nil entry)) with 0. rewrite Z.add_0_r, Z.eqb_refl. exists [(to, false)]. split; [reflexivity|]. split; [exact A|]. split; [exact B|]. split; [left; auto|]. rewrite EA, <- ZA. cbn [app]. rewrite insert_at, <- app_assoc. reflexivity.
  - rewrite <- Ep in *. assert (N : p <> []) by (rewrite Ep; discriminate). clear Ep. destruct (exists_last N) as (p' & [y a] & Ep). rewrite zlen_cons in H || idtac.
    assert (Zp : zlen p = zlen p' + 1) by (rewrite Ep, zlen_app; reflexivity). pose proof (zlen_nonneg _ p'). replace (zlen l1 + zlen p =? zlen l1) with false by lia.
    assert (EN : l1 ++ (x, true) :: p ++ q = ((l1 ++ [(x, true)]) ++ p') ++ (y, a) :: q) by (rewrite EA, Ep, <- !app_assoc; reflexivity).
    replace (zlen l1 + zlen p) with (zlen ((l1 ++ [(x, true)]) ++ p')) by (rewrite zlen_app; lia). assert (NE : nth_error (l1 ++ (x, true) :: p ++ q) (Z.to_nat (zlen ((l1 ++ [(x, true)]) ++ p'))) = Some (y, a)) by (rewrite EN; apply nth_at). rewrite NE.
    destruct a; cbn [negb].
    + exists []. split; [reflexivity|]. split; [exact A|]. split; [exact B|]. split; [right; right; split; [eauto|reflexivity]|]. rewrite EA, <- ZA. replace (zlen ((l1 ++ [(x, true)]) ++ p') + 1) with (zlen (l1 ++ [(x, true)]) + zlen p) by (rewrite !zlen_app; lia). rewrite del_at, <- app_assoc. reflexivity.
    + exists [(to, false)]. split; [reflexivity|]. split; [exact A|]. split; [exact B|]. split; [right; left; split; [eauto|reflexivity]|].
      assert (Ry : regular y). { unfold eregular in R. rewrite EN, map_app, Forall_app in R. destruct R as [_ R]. inversion R; assumption. }
      pose proof (c_equals_iff_key y to (proj1 Ry) (proj1 Rt)) as Q. destruct (c_equals y to).
      * assert (y = to) by (apply c_valid_key_inj; [apply Ry|apply Rt|apply Q; reflexivity]). subst y. rewrite EN, <- ZA. rewrite <- (app_assoc _ p'). rewrite (zlen_app _ (l1 ++ [(x, true)]) p'). rewrite del_at, <- app_assoc. reflexivity.
      * rewrite EA. replace (zlen ((l1 ++ [(x, true)]) ++ p') + 1) with (zlen ((l1 ++ [(x, true)]) ++ p)) by (rewrite !zlen_app; lia). rewrite (app_assoc _ p q), insert_at. rewrite <- (app_assoc _ p). rewrite <- ZA, (zlen_app _ (l1 ++ [(x, true)]) p). rewrite del_at, <- app_assoc. reflexivity.
Qed.

(** excludeRange adds everything between two components, unless the filter already excludes it
    all and more. *)
Theorem C81_range : forall es from to, ordered es -> regular from -> regular to -> lt_k from to -> exists es', excludeRange es from to = Ok es' /\ ordered es' /\
  forall c, regular c -> exists b, ex_matches es' c = Ok b /\ ((le_k from c /\ le_k c to -> b = true) /\ (lt_k c from -> (b = true <-> excluded es c)) /\
    (~ already es from to -> (b = true <-> excluded es c \/ le_k from c /\ le_k c to))).
Proof.
  intros es from to O Rf Rt Lt. destruct (get_shape es O) as [S R]. destruct (putFrom_ok (getExcludeEntries es) from S R Rf) as (l1 & x & m & l2 & E & Ep & Lx & G & Rp & S' & R').
  destruct (range_entries _ from to l1 x l2 Ep Lx G Lt Rt S' R') as (p & q & X & -> & Al & Ag & HX & EX). cbv zeta in EX. unfold excludeRange. rewrite Ep. assert (C0 : 0 <=? c_compare from to = false) by (destruct (c_compare_cases from to) as [[-> _]|[[_ K]|[_ K]]]; [reflexivity| |]; exfalso; apply (lt_not_le _ _ Lt); [right; symmetry; exact K|left; exact K]). rewrite C0, EX.
  assert (Lxt : lt_k x to) by (eapply le_lt; eassumption). assert (HX' : X = [(to, false)] \/ X = [] /\ exists p' y, p = p' ++ [(y, true)]) by tauto.
  assert (S2 : esorted (l1 ++ (x, true) :: q)) by (apply (sorted_sub (l1 ++ [(x, true)]) p q) in S' || (replace (l1 ++ (x, true) :: q) with ((l1 ++ [(x, true)]) ++ q) by (rewrite <- app_assoc; reflexivity); apply (sorted_sub _ p); rewrite <- app_assoc; exact S')).
  assert (SX : esorted (l1 ++ (x, true) :: X ++ q)) by (destruct HX' as [-> |[-> _]]; [apply sorted_mid; assumption|exact S2]).
  assert (RX : eregular (l1 ++ (x, true) :: X ++ q)).
  { unfold eregular in *. rewrite map_app in *. cbn [map fst] in *. rewrite !map_app in *. rewrite Forall_app in *. destruct R' as [Ra Rb]. split; [exact Ra|]. inversion Rb as [|? ? Rc Rd]; subst. constructor; [exact Rc|]. rewrite Forall_app in *. destruct Rd as [_ Rd]. split; [|exact Rd]. destruct HX' as [-> |[-> _]]; [constructor; [exact Rt|constructor]|constructor]. }
  eexists. split; [reflexivity|]. split; [apply set_ordered; assumption|]. intros c Rc. pose proof Rc as (Vc & Ec & _). destruct (C14_total (setExcludeEntries (l1 ++ (x, true) :: X ++ q)) c Vc (ordered_valid _ (set_ordered _ SX RX)) (set_wf _)) as (b & Eb & Hb). exists b. split; [exact Eb|]. rewrite Hb, (set_cov _ c SX RX Ec), <- (get_cov es c O Ec), E.
  assert (Gq : all_gt q from) by (eapply all_gt_le; [exact Ag|left; exact Lt]). assert (GX : all_gt (X ++ q) from) by (unfold all_gt; apply Forall_app; split; [destruct HX' as [-> |[-> _]]; constructor; [exact Lt|constructor]|exact Gq]).
  assert (In1 : le_k from c /\ le_k c to -> cov (l1 ++ (x, true) :: X ++ q) c).
  { intros [L1 L2]. destruct L2 as [L2|L2].
    - apply cov_last; [|eapply le_tra; eassumption|right; reflexivity]. unfold all_gt. apply Forall_app. split; [destruct HX' as [-> |[-> _]]; constructor; [exact L2|constructor]|eapply all_gt_le; [exact Ag|left; exact L2]].
    - assert (Gc : all_gt q c) by (eapply all_gt_le; [exact Ag|right; exact L2]). destruct HX' as [-> |[-> _]].
      + cbn [app]. change (l1 ++ (x, true) :: (to, false) :: q) with (l1 ++ [(x, true)] ++ (to, false) :: q). rewrite app_assoc. apply cov_last; [exact Gc|right; symmetry; exact L2|left; symmetry; exact L2].
      + cbn [app]. apply cov_last; [exact Gc|eapply le_tra; eassumption|right; reflexivity]. }
  assert (In2 : lt_k c from -> (cov (l1 ++ (x, true) :: X ++ q) c <-> cov (l1 ++ m ++ p ++ q) c)).
  { intros L. rewrite <- (before_cov l1 x m (p ++ q) from c Rp Lx G L). rewrite (before_cov l1 x [(x, true)] (X ++ q) from c (or_introl eq_refl) Lx GX L), (before_cov l1 x [(x, true)] (p ++ q) from c (or_introl eq_refl) Lx G L).
    rewrite !(app_assoc l1 [(x, true)]). rewrite (cov_gt _ (X ++ q)), (cov_gt _ (p ++ q)) by (eapply all_gt_le; [eassumption|left; exact L]). tauto. }
  split; [exact In1|]. split; [exact In2|]. intros Na. destruct (le_or_lt from c) as [L|L].
  2: { rewrite (In2 L). split; [auto|]. intros [H|[H _]]; [exact H|elim (lt_not_le _ _ L H)]. }
  destruct (le_or_lt c to) as [L2|L2]; [split; auto|].
  assert (Q : cov (l1 ++ (x, true) :: X ++ q) c <-> cov (l1 ++ m ++ p ++ q) c).
  2: { rewrite Q. split; [auto|]. intros [H|[_ H]]; [exact H|elim (lt_not_le _ _ L2 H)]. }
  assert (Cq : forall a b, (cov a c <-> cov b c) -> (cov (a ++ q) c <-> cov (b ++ q) c)). { intros ea eb H. unfold cov in *. rewrite !floor_app. destruct (floor q c) as [[? ?]|]; [tauto|exact H]. }
  replace (l1 ++ (x, true) :: X ++ q) with ((l1 ++ (x, true) :: X) ++ q) by (rewrite <- app_assoc; reflexivity). replace (l1 ++ m ++ p ++ q) with ((l1 ++ m ++ p) ++ q) by (rewrite <- !app_assoc; reflexivity). apply Cq.
  assert (Nto : forall y, le_k y to -> c_key y = c_key c -> False) by (intros y Ly Ey; apply (lt_not_le _ _ L2); destruct Ly as [Ly|Ly]; [left; unfold lt_k in *; rewrite <- Ey; exact Ly|right; congruence]).
  assert (Lc : forall y, le_k y to -> le_k y c) by (intros y Ly; left; eapply le_lt; eassumption).
  assert (XF : forall a, ~ cov (a ++ [(to, false)]) c). { intros a K. apply (cov_last a to false [] c) in K; [|constructor|apply Lc, le_refl]. destruct K as [K|K]; [exact (Nto to (le_refl to) K)|discriminate K]. }
  assert (Fro : forall z, le_k z from -> le_k z to) by (intros z Hz; left; eapply le_lt; eassumption).
  destruct HX as [[-> ->]|[[(p' & y & ->) ->]|[(p' & y & ->) ->]]].
  - rewrite app_nil_r. split; [intros K; exfalso; apply (XF (l1 ++ [(x, true)])); rewrite <- app_assoc; exact K|]. intros K. exfalso. destruct Rp as [-> |[(-> & Ex)|(-> & -> & Hn)]].
    + apply Na. destruct q as [|[u bu] q].
      * destruct (bump to Rt) as (d & Rd & Ld). exists d. split; [exact Rd|]. split; [exact Ld|]. intros c' Rc' L1' L2'. apply (get_cov es c' O (proj1 (proj2 Rc'))). rewrite E. cbn [app]. apply cov_last; [constructor|eapply le_tra; eassumption|right; reflexivity].
      * exists u. split; [|split].
        -- unfold eregular in R'. rewrite map_app, Forall_app in R'. destruct R' as [_ R']. cbn [map fst app] in R'. inversion R' as [|? ? _ R'']; inversion R''; assumption.
        -- inversion Ag; assumption.
        -- intros c' Rc' L1' L2'. apply (get_cov es c' O (proj1 (proj2 Rc'))). rewrite E. cbn [app]. unfold esorted in S'. rewrite map_app, sorted_app in S'. destruct S' as (_ & S' & _). cbn [map fst app] in S'. inversion S' as [|? ? S'' _]; subst. inversion S'' as [|? ? _ S3]; subst.
           destruct L2' as [L2'|L2'].
           ++ apply cov_last; [|eapply le_tra; eassumption|right; reflexivity]. constructor; [exact L2'|]. apply Forall_forall. intros e He. eapply lt_tra; [exact L2'|]. rewrite Forall_forall in S3. apply S3, in_map, He.
           ++ change (l1 ++ (x, true) :: (u, bu) :: q) with (l1 ++ [(x, true)] ++ (u, bu) :: q). rewrite app_assoc. apply cov_last; [|right; symmetry; exact L2'|left; symmetry; exact L2']. apply Forall_forall. intros e He. unfold lt_k. rewrite L2'. rewrite Forall_forall in S3. apply S3, in_map, He.
    + apply (cov_last l1 x false [] c) in K; [|constructor|apply Lc, Fro, Lx]. destruct K as [K|K]; [exact (Nto x (Fro x Lx) K)|discriminate K].
    + cbn [app] in K. rewrite app_nil_r in K. apply (Hn c); [eapply lt_tra; eassumption|exact K].
  - unfold all_le in Al. rewrite Forall_app in Al. destruct Al as [_ Al]. inversion Al as [|? ? Ly _]; subst. cbn [fst] in Ly. split; [intros K; exfalso; apply (XF (l1 ++ [(x, true)])); rewrite <- app_assoc; exact K|]. intros K. exfalso. rewrite !app_assoc in K. apply (cov_last _ y false [] c) in K; [|constructor|apply Lc, Ly]. destruct K as [K|K]; [exact (Nto y Ly K)|discriminate K].
  - unfold all_le in Al. rewrite Forall_app in Al. destruct Al as [_ Al]. inversion Al as [|? ? Ly _]; subst. cbn [fst] in Ly. split; intros _; [rewrite !app_assoc; apply (cov_last _ y true [] c); [constructor|apply Lc, Ly|right; reflexivity]|apply cov_last; [constructor|apply Lc, Fro, Lx|right; reflexivity]].
Qed.
(** excludeBefore adds everything up to a component that is not excluded yet. *)
Theorem C81_before : forall es to, ordered es -> regular to -> to <> c_empty -> ~ excluded es to -> exists es', excludeBefore es to = Ok es' /\ ordered es' /\
  forall c, regular c -> exists b, ex_matches es' c = Ok b /\ (b = true <-> excluded es c \/ le_k c to).
Proof.
  intros es to O Rt Ne N. assert (Re : regular c_empty) by (split; [split; [constructor|right; split; [right; right; reflexivity|reflexivity]]|split; [apply le_refl|reflexivity]]).
  assert (Lt : lt_k c_empty to) by (destruct Rt as (V & [L|L] & E); [exact L|elim Ne; apply empty_key; [split; [exact V|split; [right; exact L|exact E]]|exact L]]).
  destruct (C81_range es c_empty to O Re Rt Lt) as (es' & E & O' & H). exists es'. split; [exact E|]. split; [exact O'|]. intros c Rc. destruct (H c Rc) as (b & Eb & _ & _ & Hb). exists b. split; [exact Eb|].
  rewrite Hb; [|intros (d & _ & Ld & Hd); apply N, (Hd to Rt); left; assumption]. destruct Rc as (_ & Lc & _). tauto.
Qed.
(** excludeRange refuses exactly an empty range. *)
Theorem C81_range_error : forall es from to, (exists e, excludeRange es from to = Err e) <-> le_k to from.
Proof.
  intros es from to. unfold excludeRange. destruct (c_compare_cases from to) as [[-> H]|[[-> H]|[-> H]]]; cbn [Z.leb Z.compare].
  - change (0 <=? -1) with false. cbv iota. split; [|intros K; elim (lt_not_le _ _ H K)]. intros (e & E). destruct (putFrom _ _). discriminate E.
  - split; [intros _; right; symmetry; exact H|intros _; eexists; reflexivity].
  - split; [intros _; left; exact H|intros _; eexists; reflexivity].
Qed.
Lemma gen_regular : forall v, bytes_okb v = true -> regular (c_generic v).
Proof.
  intros v H. apply bytes_okb_ok in H. split; [split; [exact H|right; split; [right; right; reflexivity|reflexivity]]|]. split; [|cbn; intros ->; reflexivity].
  destruct v as [|z v]; [right; reflexivity|]. left. right. split; [reflexivity|]. left. cbn [c_key c_generic snd c_value]. change (zlen (c_value c_empty)) with 0. rewrite zlen_cons. pose proof (zlen_nonneg _ v). lia.
Qed.
Ltac regs := cbn [listed flat_map app]; repeat (apply Forall_cons; [apply gen_regular; reflexivity|]); apply Forall_nil.
Ltac k_lt := apply cmp_le_f; reflexivity.
Lemma unexcluded : forall es c, c_valid c -> ex_valid es -> ex_matches es c = Ok false -> ~ excluded es c.
Proof. intros es c V X E H. apply (C14_matches es c false V X E) in H. discriminate H. Qed.
(** Adding a range inside a range that is excluded already takes the rest of that range out. *)
Theorem C81_range_shrinks_refuted : exists es es' from to c, ordered es /\ regular from /\ regular to /\ regular c /\ excludeRange es from to = Ok es' /\ ex_matches es c = Ok true /\ ex_matches es' c = Ok false.
Proof.
  exists [ExComp (c_generic [97]); ExAny; ExComp (c_generic [101])], [ExComp (c_generic [97]); ExAny; ExComp (c_generic [99]); ExComp (c_generic [101])], (c_generic [98]), (c_generic [99]), (c_generic [100]).
  split; [split; [regs|split; [|exact I]]|].
  - cbn [listed flat_map app]. constructor; [constructor; constructor|]. constructor; [k_lt|constructor].
  - split; [apply gen_regular; reflexivity|]. split; [apply gen_regular; reflexivity|]. split; [apply gen_regular; reflexivity|]. split; [reflexivity|]. split; reflexivity.
Qed.
(** An empty component of another type is taken for the beginning of all components. *)
Theorem C81_typed_empty_refuted : exists from c, c_valid from /\ regular c /\ lt_k c from /\ ex_matches (excludeAfter [] from) c = Ok true.
Proof.
  exists (Comp CT_OTHER 9 []), (c_generic [97]). split; [split; [constructor|left; repeat split; discriminate]|]. split; [apply gen_regular; reflexivity|]. split; [k_lt|reflexivity].
Qed.

(** ** A concrete filter: [b..., d, f...] *)
Definition x_filter : list exentry := [ExComp (c_generic [98]); ExComp (c_generic [100]); ExAny; ExComp (c_generic [102])].
Example C81_ex : ordered x_filter /\ excludeAfter x_filter (c_generic [101]) = [ExComp (c_generic [98]); ExComp (c_generic [100]); ExAny] /\
  excludeBefore x_filter (c_generic [99]) = Ok [ExAny; ExComp (c_generic [99]); ExComp (c_generic [100]); ExAny; ExComp (c_generic [102])] /\
  ~ excluded x_filter (c_generic [99]) /\ ~ already x_filter (c_generic [97]) (c_generic [99]).
Proof.
  assert (V : ordered x_filter).
  { unfold x_filter. split; [regs|]. split; [|exact I]. cbn [listed flat_map app]. apply SSorted_cons; [apply SSorted_cons; [apply SSorted_cons; [apply SSorted_nil|apply Forall_nil]|]|]; repeat (apply Forall_cons; [k_lt|]); apply Forall_nil. }
  split; [exact V|]. split; [reflexivity|]. split; [reflexivity|]. assert (N : forall v, bytes_okb v = true -> ex_matches x_filter (c_generic v) = Ok false -> ~ excluded x_filter (c_generic v)) by (intros v B E; apply unexcluded; [apply gen_regular; exact B|apply ordered_valid; exact V|exact E]).
  split; [apply N; reflexivity|]. intros (d & _ & L & H). apply (N [99] eq_refl eq_refl). apply H; [apply gen_regular; reflexivity|left; k_lt|left; exact L].
Qed.

Print Assumptions C81_after.
Print Assumptions C81_range.
Print Assumptions C81_before.
Print Assumptions C81_range_error.
Print Assumptions C81_range_shrinks_refuted.
Print Assumptions C81_typed_empty_refuted.
