(** * Properties C37 (Interval), C38 (RepetitiveInterval) and C39 (Schedule) *)
From Verif Require Import Base BaseLemmas UriModel UriProofs CalModel CalProofs TlvModel SchedModel SchedSpec.
From Coq Require Import ZifyBool Sorted.
Local Open Scope res_scope.

(** ** C37 *)
Theorem C37_constructor : forall s e,
  (s < e -> exists i, iv_new s e = Ok i /\ proper i /\ forall t, inside i t <-> s <= t < e) /\
  (e <= s -> iv_new s e = Err RuntimeError) /\
  proper (iv_default true) /\ (forall t, ~ inside (iv_default true) t) /\ iv_valid (iv_default false) = false.
Proof.
  intros s e. unfold iv_new, proper, inside. split; [|split; [|split; [|split]]].
  - intros H. replace (s <? e) with true by lia. eexists. split; [reflexivity|]. cbn [iv_start iv_end iv_valid]. split; [split; [reflexivity|lia]|]. tauto.
  - intros H. replace (s <? e) with false by lia. reflexivity.
  - split; [reflexivity|]. apply Z.le_refl.
  - intros t. unfold iv_default. cbn [iv_start iv_end]. lia.
  - reflexivity.
Qed.
Theorem C37_covers : forall i t, proper i -> exists b, iv_covers i t = Ok b /\ (b = true <-> inside i t).
Proof.
  intros [s e v] t [V L]. cbn [iv_valid iv_start iv_end] in *. subst v. unfold iv_covers, iv_isEmpty, inside. cbn [iv_valid iv_start iv_end negb rbind].
  destruct (s =? e) eqn:E; eexists; (split; [reflexivity|]); lia.
Qed.
Theorem C37_isEmpty : forall i, proper i -> exists b, iv_isEmpty i = Ok b /\ (b = true <-> forall t, ~ inside i t).
Proof.
  intros [s e v] [V L]. cbn [iv_valid iv_start iv_end] in *. subst v. unfold iv_isEmpty, inside. cbn [iv_valid iv_start iv_end negb].
  eexists. split; [reflexivity|]. split; [lia|]. intros H. specialize (H s). lia.
Qed.
Theorem C37_intersect : forall i j, proper i -> proper j -> exists k, iv_intersectWith i j = Ok k /\ proper k /\
  forall t, inside k t <-> inside i t /\ inside j t.
Proof.
  intros [s e v] [s' e' v'] [V L] [V' L']. unfold proper. cbn [iv_valid iv_start iv_end] in *. subst v v'.
  unfold iv_intersectWith, iv_isEmpty, inside. cbn [iv_valid iv_start iv_end negb rbind].
  destruct ((s =? e) || (s' =? e')) eqn:E1; [|destruct ((e' <=? s) || (e <=? s')) eqn:E2];
    (eexists; split; [reflexivity|]; cbn [iv_valid iv_start iv_end]).
  - split; [split; [reflexivity|lia]|]. intros t. lia.
  - split; [split; [reflexivity|lia]|]. intros t. lia.
  - destruct (s <=? s') eqn:E3, (e' <? e) eqn:E4; (split; [split; [reflexivity|lia]|]); intros t; lia.
Qed.
(** The union is computed when one side is empty or the two have a common point, and is
    refused otherwise. *)
Theorem C37_union : forall i j, proper i -> proper j ->
  ((forall t, ~ inside i t) \/ (forall t, ~ inside j t) \/ (exists t, inside i t /\ inside j t) ->
   exists k, iv_unionWith i j = Ok k /\ proper k /\ forall t, inside k t <-> inside i t \/ inside j t) /\
  ((exists t, inside i t) -> (exists t, inside j t) -> (forall t, ~ (inside i t /\ inside j t)) -> iv_unionWith i j = Err RuntimeError).
Proof.
  intros [s e v] [s' e' v'] [V L] [V' L']. unfold proper. cbn [iv_valid iv_start iv_end] in *. subst v v'.
  unfold iv_unionWith, iv_isEmpty, inside. cbn [iv_valid iv_start iv_end negb rbind].
  split.
  - intros H.
    assert (H' : s = e \/ s' = e' \/ (s < e' /\ s' < e)).
    { destruct H as [H|[H|(t & H1 & H2)]]; [left; specialize (H s); lia|right; left; specialize (H s'); lia|lia]. }
    clear H. destruct (s =? e) eqn:E1; [|destruct (s' =? e') eqn:E2; [|destruct ((e' <=? s) || (e <=? s')) eqn:E3]];
    try lia; (eexists; split; [reflexivity|]; cbn [iv_valid iv_start iv_end]).
    + split; [split; [reflexivity|lia]|]. intros t. lia.
    + split; [split; [reflexivity|lia]|]. intros t. lia.
    + destruct (s' <? s) eqn:E4, (e <? e') eqn:E5; (split; [split; [reflexivity|lia]|]); intros t; lia.
  - intros [t1 H1] [t2 H2] H. replace (s =? e) with false by lia. replace (s' =? e') with false by lia.
    destruct ((e' <=? s) || (e <=? s')) eqn:E3; [reflexivity|].
    exfalso. apply (H (Z.max s s')). lia.
Qed.
Theorem C37_invalid : forall i j t, iv_valid i = false ->
  iv_covers i t = Err RuntimeError /\ iv_isEmpty i = Err RuntimeError /\ iv_intersectWith i j = Err RuntimeError /\
  iv_intersectWith j i = Err RuntimeError /\ iv_unionWith i j = Err RuntimeError /\ iv_unionWith j i = Err RuntimeError /\
  iv_getStartTime i = Err RuntimeError /\ iv_getEndTime i = Err RuntimeError.
Proof.
  intros i j t H. unfold iv_covers, iv_isEmpty, iv_intersectWith, iv_unionWith, iv_getStartTime, iv_getEndTime. rewrite H. cbn [negb].
  destruct (iv_valid j); cbn [negb]; tauto.
Qed.
Theorem C37_bounds : forall i, proper i -> (exists t, inside i t) -> exists a b, iv_getStartTime i = Ok a /\ iv_getEndTime i = Ok b /\
  forall t, inside i t <-> a <= t < b.
Proof. intros i [V L] _. unfold iv_getStartTime, iv_getEndTime. rewrite V. cbn [negb]. eexists _, _. split; [reflexivity|]. split; [reflexivity|]. unfold inside. tauto. Qed.
(** The union of two touching intervals is an interval, but unionWith refuses it. *)
Theorem C37_union_touching_refuted : forall a b c, a < b -> b < c ->
  iv_unionWith (Iv a b true) (Iv b c true) = Err RuntimeError /\
  (forall t, inside (Iv a c true) t <-> inside (Iv a b true) t \/ inside (Iv b c true) t).
Proof.
  intros a b c H1 H2. split.
  - apply (C37_union (Iv a b true) (Iv b c true)); unfold proper, inside; cbn [iv_valid iv_start iv_end]; try (split; [reflexivity|lia]).
    + exists a. lia. + exists b. lia. + intros t. lia.
  - intros t. unfold inside. cbn [iv_start iv_end]. lia.
Qed.

(** ** C38 *)
Lemma round_cases : forall us, round1000 us = us / 1000 /\ us mod 1000 <= 500 \/ round1000 us = us / 1000 + 1 /\ 500 <= us mod 1000.
Proof. intros us. unfold round1000. destruct (us mod 1000 <? 500) eqn:A, (500 <? us mod 1000) eqn:B, (Z.even (us / 1000)) eqn:C; lia. Qed.
Lemma dateOnly_ok : forall us, not_last_instant us -> dateOnly us = us / DAY_US * DAY.
Proof.
  intros us H. unfold not_last_instant, DAY_US in *. unfold dateOnly, DAY. change (24 * 3600 * 1000) with 86400000.
  destruct (round_cases us) as [[-> R]|[-> R]]; Z.div_mod_to_equations; lia.
Qed.
Lemma dateOnly_ms : forall t, dateOnly (1000 * t) = t / DAY * DAY.
Proof.
  intros t. unfold dateOnly. rewrite Z.mul_comm, round1000_exact. unfold DAY. change (24 * 3600 * 1000) with 86400000.
  Z.div_mod_to_equations; lia.
Qed.
Lemma made_facts : forall r, made r -> exists S E, ri_startDate r = S * DAY /\ ri_endDate r = E * DAY /\ S <= E /\
  ri_startDate r / DAY = S /\ ri_endDate r / DAY = E /\
  0 <= ri_startHour r < ri_endHour r /\ ri_endHour r <= 24 /\ (ri_unit r = UNIT_NONE -> S = E).
Proof.
  intros r (sd & ed & sh & eh & n & u & H). unfold ri_new in H. rewrite !dateOnly_ms in H.
  exists (sd / DAY), (ed / DAY).
  assert (P : 0 < DAY) by (unfold DAY; lia).
  assert (Md : forall a b, (a * DAY <= b * DAY -> a <= b) /\ (a * DAY = b * DAY -> a = b)) by (unfold DAY; intros; lia).
  destruct (sh <? eh) eqn:E1; [|discriminate]. cbn [negb] in H.
  destruct (sd / DAY * DAY <=? ed / DAY * DAY) eqn:E2; [|discriminate]. cbn [negb] in H.
  destruct (0 <=? sh) eqn:E3; [|discriminate]. cbn [negb] in H.
  destruct ((1 <=? eh) && (eh <=? 24)) eqn:E4; [|discriminate]. cbn [negb] in H.
  destruct (_ && _) eqn:E5 in H; [discriminate|]. inversion H; subst r; clear H. cbn [ri_startDate ri_endDate ri_startHour ri_endHour ri_unit].
  rewrite !Z.div_mul by lia.
  assert (K : sd / DAY <= ed / DAY) by (apply Md; lia).
  assert (K2 : (match u with Some u0 => u0 | None => UNIT_NONE end) = UNIT_NONE -> sd / DAY = ed / DAY).
  { intros Eu. rewrite Eu in E5. apply Md. unfold UNIT_NONE in E5. destruct (sd / DAY * DAY =? ed / DAY * DAY) eqn:E6; [apply Z.eqb_eq; exact E6|discriminate]. }
  repeat (split; [first [reflexivity|lia]|]). exact K2.
Qed.

Lemma days_seconds : forall D, 1 <= EPOCH_ORD + D -> EPOCH_ORD + D <= 3652059 ->
  exists t, dt_fromSeconds (D * 86400) = Ok t /\ date_of D = (dt_y t, dt_m t, dt_d t).
Proof.
  intros D H1 H2. unfold dt_fromSeconds, date_of. rewrite Z.div_mul by lia. rewrite (Z.add_comm D). destruct (ord2ymd (EPOCH_ORD + D)) as [[y m] d] eqn:E.
  pose proof (ord_range _ _ _ _ E) as (_ & R & _).
  replace ((1 <=? EPOCH_ORD + D) && (y <=? 9999)) with true by lia. eexists. split; reflexivity.
Qed.
Lemma divides0_ok : forall x n, n <> 0 -> exists b, divides0 x n = Ok b /\ (b = true <-> (n | x)).
Proof.
  intros x n H. unfold divides0. replace (n =? 0) with false by lia. eexists. split; [reflexivity|].
  rewrite Z.eqb_eq. apply Z.mod_divide. exact H.
Qed.

Lemma hasInterval_gen : forall r us D, usable r -> dateOnly us = D * DAY ->
  exists b, hasIntervalOnDate r us = Ok b /\ (b = true <-> repeats_on r D).
Proof.
  intros r us D (M & N & C1 & C2) ED. destruct (made_facts r M) as (S & E & ES & EE & LE & DS & DE & _ & _ & _).
  unfold hasIntervalOnDate, repeats_on. rewrite ED. rewrite DS, DE in *. rewrite ES, EE.
  assert (P : 0 < DAY) by (unfold DAY; lia).
  assert (Q : ((D * DAY <? S * DAY) || (E * DAY <? D * DAY)) = ((D <? S) || (E <? D))).
  { unfold DAY. lia. }
  rewrite Q. clear Q. destruct (date_of D) as [[y m] d] eqn:DD. destruct (date_of S) as [[ys ms] ds] eqn:DDS.
  destruct ((D <? S) || (E <? D)) eqn:R; [eexists; split; [reflexivity|]; split; [discriminate|lia]|].
  unfold UNIT_NONE, UNIT_DAY, UNIT_MONTH, UNIT_YEAR in *.
  destruct (ri_unit r =? 0) eqn:U0; [eexists; split; [reflexivity|]; split; [intros _; lia|reflexivity]|].
  destruct (ri_unit r =? 1) eqn:U1.
  { destruct (divides0_ok (D - S) (ri_n r)) as (b & Eb & Hb); [apply N; lia|].
    replace ((D * DAY - S * DAY) / DAY) with (D - S) by (rewrite <- Z.mul_sub_distr_r, Z.div_mul by lia; reflexivity).
    exists b. split; [exact Eb|]. rewrite Hb. split; [intros K; split; [lia|right; left; split; [lia|exact K]]|].
    intros [_ [K|[K|[K|K]]]]; try lia. tauto. }
  replace (round1000 (D * DAY)) with (D * 86400).
  2: { replace (D * DAY) with (D * 86400 * 1000) by (unfold DAY; lia). rewrite round1000_exact. reflexivity. }
  replace (S * DAY / 1000) with (S * 86400).
  2: { replace (S * DAY) with (S * 86400 * 1000) by (unfold DAY; lia). rewrite Z.div_mul by lia. reflexivity. }
  destruct (days_seconds D) as (t & Et & Edt); [lia|lia|]. destruct (days_seconds S) as (s & Es & Eds); [lia|lia|].
  rewrite Et, Es. cbn [rbind].
  rewrite DD in Edt. rewrite DDS in Eds.
  assert (TT : dt_y t = y /\ dt_m t = m /\ dt_d t = d /\ dt_y s = ys /\ dt_m s = ms /\ dt_d s = ds) by (split; [congruence|]; repeat (split; [congruence|]); congruence).
  destruct TT as (-> & -> & -> & -> & -> & ->).
  destruct (ri_unit r =? 2) eqn:U2, (ri_unit r =? 3) eqn:U3; cbn [andb]; try lia.
  - destruct (d =? ds) eqn:Ed; [|eexists; split; [reflexivity|]; split; [discriminate|lia]].
    destruct (divides0_ok (12 * (y - ys) + m - ms) (ri_n r)) as (b & Eb & Hb); [apply N; lia|].
    exists b. split; [exact Eb|]. rewrite Hb. replace (12 * (y - ys) + m - ms) with (12 * (y - ys) + (m - ms)) by lia.
    split; [intros K; split; [lia|right; right; left; split; [lia|split; [lia|exact K]]]|].
    intros [_ [K|[K|[K|K]]]]; try lia. tauto.
  - destruct (d =? ds) eqn:Ed; [|eexists; split; [reflexivity|]; split; [discriminate|lia]]. cbn [andb].
    destruct (m =? ms) eqn:Em; [|eexists; split; [reflexivity|]; split; [discriminate|lia]].
    destruct (divides0_ok (y - ys) (ri_n r)) as (b & Eb & Hb); [apply N; lia|].
    exists b. split; [exact Eb|]. rewrite Hb.
    split; [intros K; split; [lia|right; right; right; split; [lia|split; [lia|split; [lia|exact K]]]]|].
    intros [_ [K|[K|[K|K]]]]; try lia. tauto.
  - eexists. split; [reflexivity|]. split; [discriminate|]. lia.
Qed.

Lemma hasInterval_ok : forall r us, usable r -> not_last_instant us ->
  exists b, hasIntervalOnDate r us = Ok b /\ (b = true <-> repeats_on r (us / DAY_US)).
Proof. intros r us U NL. apply hasInterval_gen; [exact U|]. apply dateOnly_ok. exact NL. Qed.

Lemma occurs_iff : forall r us, made r -> (occurs r us <->
  repeats_on r (us / DAY_US) /\ us / DAY_US * DAY_US + ri_startHour r * HOUR_US <= us < us / DAY_US * DAY_US + ri_endHour r * HOUR_US).
Proof.
  intros r us M. destruct (made_facts r M) as (S & E & _ & _ & _ & _ & _ & H1 & H2 & _). unfold occurs. split.
  - intros (D & R & I). assert (ED : us / DAY_US = D).
    { unfold DAY_US, HOUR_US in *. symmetry. apply (Z.div_unique us 86400000000 D (us - D * 86400000000)); lia. }
    rewrite ED. tauto.
  - intros [R I]. exists (us / DAY_US). tauto.
Qed.
Lemma closing_iff : forall r us, made r -> (closing r us <->
  repeats_on r (us / DAY_US) /\ us = us / DAY_US * DAY_US + ri_endHour r * HOUR_US /\ ri_endHour r < 24).
Proof.
  intros r us M. destruct (made_facts r M) as (S & E & _ & _ & _ & _ & _ & H1 & H2 & _). unfold closing. split.
  - intros (D & R & I & L). assert (ED : us / DAY_US = D).
    { unfold DAY_US, HOUR_US in *. symmetry. apply (Z.div_unique us 86400000000 D (us - D * 86400000000)); lia. }
    rewrite ED. tauto.
  - intros (R & I & L). exists (us / DAY_US). tauto.
Qed.
Lemma day_split : forall us, us / DAY_US * DAY_US <= us < us / DAY_US * DAY_US + DAY_US.
Proof. intros us. unfold DAY_US. Z.div_mod_to_equations. lia. Qed.
Lemma same_day : forall us t D, D * DAY_US <= t < D * DAY_US + DAY_US -> D = us / DAY_US -> t / DAY_US = us / DAY_US.
Proof. intros us t D H E. subst D. unfold DAY_US in *. symmetry. apply (Z.div_unique t 86400000000 _ (t - us / 86400000000 * 86400000000)); lia. Qed.

(** The two facts about one daily interval: the time points of the result lie in one day,
    and the result is the maximal part of that day with the same answer. *)
Theorem C38_getInterval : forall r us, usable r -> not_last_instant us -> ~ closing r us ->
  exists pos i, ri_getInterval r us = Ok (pos, i) /\ proper i /\ inside_us i us /\
    (pos = true <-> occurs r us) /\
    (pos = true -> forall t, inside_us i t -> occurs r t) /\
    (pos = false -> forall t, inside_us i t -> ~ occurs r t).
Proof.
  intros r us U NL NC. pose proof U as (M & _). destruct (made_facts r M) as (S & E & _ & _ & _ & _ & _ & H1 & H2 & _).
  rewrite closing_iff in NC by assumption.
  destruct (hasInterval_ok r us U NL) as (h & Eh & Hh). unfold ri_getInterval. rewrite Eh. cbn [rbind].
  rewrite (dateOnly_ok us NL). set (D := us / DAY_US) in *. pose proof (day_split us) as DS. fold D in DS.
  assert (Same : forall t, D * DAY_US <= t < D * DAY_US + DAY_US -> t / DAY_US = D) by (intros t Ht; apply (same_day us t D Ht); reflexivity).
  assert (Occ : forall t, D * DAY_US <= t < D * DAY_US + DAY_US -> (occurs r t <-> h = true /\ D * DAY_US + ri_startHour r * HOUR_US <= t < D * DAY_US + ri_endHour r * HOUR_US)).
  { intros t Ht. rewrite occurs_iff by assumption. rewrite (Same t Ht), Hh. tauto. }
  pose proof (Occ us DS) as OccU. rewrite <- Hh in NC. unfold inside_us, proper.
  unfold DAY, HOUR, DAY_US, HOUR_US in *. clearbody D. clear Eh Hh. destruct h; cbn [negb].
  - destruct (us <? 1000 * (D * (24 * 3600 * 1000) + ri_startHour r * (3600 * 1000))) eqn:A;
    [|destruct (1000 * (D * (24 * 3600 * 1000) + ri_endHour r * (3600 * 1000)) <? us) eqn:B];
    unfold iv_new;
    (replace (_ <? _) with true by lia); cbn [negb rbind]; eexists _, _; (split; [reflexivity|]); cbn [iv_start iv_end iv_valid];
    (split; [split; [reflexivity|lia]|]); (split; [lia|]); (split; [rewrite OccU; lia|]); (split; intros P; try discriminate); intros t Ht;
    rewrite Occ by lia; lia.
  - unfold iv_new. (replace (_ <? _) with true by lia); cbn [negb rbind]; eexists _, _; (split; [reflexivity|]); cbn [iv_start iv_end iv_valid];
    (split; [split; [reflexivity|lia]|]); (split; [lia|]); (split; [rewrite OccU; lia|]); (split; intros P; try discriminate); intros t Ht.
    rewrite Occ by lia. lia.
Qed.

(** The constructor keeps the days of the two dates and checks its arguments. *)
Theorem C38_constructor : forall sd ed sh eh n u,
  let n' := match n with None => 0 | Some x => x end in
  let u' := match u with None => UNIT_NONE | Some x => x end in
  (0 <= sh /\ sh < eh /\ eh <= 24 /\ sd / DAY <= ed / DAY /\ (u' = UNIT_NONE -> sd / DAY = ed / DAY) ->
   ri_new sd ed sh eh n u = Ok (Ri (sd / DAY * DAY) (ed / DAY * DAY) sh eh n' u')) /\
  (~ (0 <= sh /\ sh < eh /\ eh <= 24 /\ sd / DAY <= ed / DAY /\ (u' = UNIT_NONE -> sd / DAY = ed / DAY)) ->
   ri_new sd ed sh eh n u = Err RuntimeError).
Proof.
  intros sd ed sh eh n u n' u'. unfold ri_new. fold n' u'. rewrite !dateOnly_ms.
  replace (sd / DAY * DAY <=? ed / DAY * DAY) with (sd / DAY <=? ed / DAY) by (unfold DAY; lia).
  replace (sd / DAY * DAY =? ed / DAY * DAY) with (sd / DAY =? ed / DAY) by (unfold DAY; lia).
  destruct (sh <? eh) eqn:E1; cbn [negb]; [|split; [lia|reflexivity]].
  destruct (sd / DAY <=? ed / DAY) eqn:E2; cbn [negb]; [|split; [lia|reflexivity]].
  destruct (0 <=? sh) eqn:E3; cbn [negb]; [|split; [lia|reflexivity]].
  destruct ((1 <=? eh) && (eh <=? 24)) eqn:E4; cbn [negb]; [|split; [lia|reflexivity]].
  destruct (u' =? UNIT_NONE) eqn:E5, (sd / DAY =? ed / DAY) eqn:E6; cbn [negb andb]; (split; [try reflexivity; lia|try reflexivity; lia]).
Qed.

(** At the closing time of a daily interval the answer is positive, although the time
    point is neither in a daily interval nor in the interval returned. *)
Theorem C38_closing_hour_refuted : forall r us, usable r -> closing r us ->
  exists i, ri_getInterval r us = Ok (true, i) /\ ~ occurs r us /\ ~ inside_us i us.
Proof.
  intros r us U C. pose proof U as (M & _). destruct (made_facts r M) as (S & E & _ & _ & _ & _ & _ & H1 & H2 & _).
  rewrite closing_iff in C by assumption. destruct C as (R & C & L).
  assert (NL : not_last_instant us).
  { unfold not_last_instant. rewrite Z.mod_eq by (unfold DAY_US; lia). unfold DAY_US, HOUR_US in *. lia. }
  destruct (hasInterval_ok r us U NL) as (h & Eh & Hh). apply Hh in R. unfold ri_getInterval. rewrite Eh. cbn [rbind]. rewrite R. cbn [negb].
  rewrite (dateOnly_ok us NL). pose proof (occurs_iff r us M) as OI. set (D := us / DAY_US) in *. clearbody D. unfold DAY, HOUR, DAY_US, HOUR_US in *.
  replace (us <? _) with false by lia. replace (_ <? us) with false by lia.
  unfold iv_new. replace (_ <? _) with true by lia. cbn [negb rbind]. eexists. split; [reflexivity|]. rewrite OI. unfold inside_us. cbn [iv_start iv_end]. lia.
Qed.

(** In the last half millisecond of a day the time is rounded to the next day: the result
    is an interval that does not contain the time point, or an exception. *)
Theorem C38_last_instant_refuted : forall r us, usable r -> DAY_US - 500 <= us mod DAY_US ->
  (exists pos i, ri_getInterval r us = Ok (pos, i) /\ ~ inside_us i us) \/ ri_getInterval r us = Err RuntimeError.
Proof.
  intros r us U L. pose proof U as (M & _). destruct (made_facts r M) as (S & E & _ & _ & _ & _ & _ & H1 & H2 & _).
  assert (ED : dateOnly us = (us / DAY_US + 1) * DAY).
  { unfold dateOnly, DAY, DAY_US in *. change (24 * 3600 * 1000) with 86400000.
    assert (V : us mod 1000 = 500 -> us / 1000 mod 2 = 1) by (clear -L; Z.div_mod_to_equations; lia).
    assert (R : round1000 us = us / 1000 + 1).
    { unfold round1000. replace (us mod 1000 <? 500) with false by (clear -L; Z.div_mod_to_equations; lia).
      destruct (500 <? us mod 1000) eqn:A; [reflexivity|]. assert (V' : us mod 1000 = 500) by (clear -L A; Z.div_mod_to_equations; lia).
      apply V in V'. rewrite Zmod_even in V'. destruct (Z.even (us / 1000)); [discriminate|reflexivity]. }
    rewrite R. clear V R. Z.div_mod_to_equations. lia. }
  destruct (hasInterval_gen r us _ U ED) as (h & Eh & _). unfold ri_getInterval. rewrite Eh, ED. cbn [rbind].
  pose proof (day_split us) as DS. set (D := us / DAY_US) in *. clearbody D.
  assert (DD : (D + 1) * DAY * 1000 = D * DAY_US + DAY_US) by (unfold DAY, DAY_US; lia).
  destruct h; cbn [negb].
  - replace (us <? 1000 * ((D + 1) * DAY + ri_startHour r * HOUR)) with true by (unfold HOUR in *; lia).
    unfold iv_new. destruct ((D + 1) * DAY <? (D + 1) * DAY + ri_startHour r * HOUR) eqn:A; cbn [negb rbind]; [left|right; reflexivity].
    eexists _, _. split; [reflexivity|]. unfold inside_us. cbn [iv_start iv_end]. lia.
  - left. unfold iv_new. replace (_ <? _) with true by (unfold HOUR; lia). cbn [negb rbind]. eexists _, _. split; [reflexivity|]. unfold inside_us. cbn [iv_start iv_end]. lia.
Qed.

(** A day-repeating interval made with a zero repeat count raises. *)
Theorem C38_zero_repeats_refuted : forall r us, made r -> ri_unit r = UNIT_DAY -> ri_n r = 0 ->
  ri_startDate r <= dateOnly us <= ri_endDate r -> ri_getInterval r us = Err ZeroDivisionError.
Proof.
  intros r us _ U N D. unfold ri_getInterval, hasIntervalOnDate. rewrite U, N.
  replace (_ || _) with false by lia. reflexivity.
Qed.

(** ** C39 *)
Lemma inside_us_ms : forall i us, inside_us i us <-> inside i (us / 1000).
Proof. intros i us. unfold inside_us, inside. Z.div_mod_to_equations. lia. Qed.

Definition PosI (us : Z) (done : list ri) (pos : iv) : Prop :=
  proper pos /\ (iv_start pos = iv_end pos /\ (forall r, In r done -> ~ occurs r us)
    \/ inside_us pos us /\ (forall t, inside_us pos t -> exists r, In r done /\ occurs r t)).
Definition NegI (us : Z) (done : list ri) (neg : iv) : Prop :=
  iv_valid neg = false /\ (forall r, In r done -> occurs r us)
  \/ proper neg /\ inside_us neg us /\ (forall t r, inside_us neg t -> In r done -> ~ occurs r us -> ~ occurs r t).

Lemma calc_ok : forall l us, Forall usable l -> not_last_instant us -> (forall r, In r l -> ~ closing r us) ->
  forall done pos neg, PosI us done pos -> NegI us done neg ->
  exists pos' neg', calculateIntervalResult l us pos neg = Ok (pos', neg') /\ PosI us (done ++ l) pos' /\ NegI us (done ++ l) neg'.
Proof.
  induction l as [|r l IH]; intros us U NL NC done pos neg P N.
  - exists pos, neg. rewrite app_nil_r. split; [reflexivity|]. split; assumption.
  - cbn [calculateIntervalResult]. inversion U as [|? ? U1 U2]; subst.
    destruct (C38_getInterval r us U1 NL (NC r (or_introl eq_refl))) as (p & i & E & Pi & Ii & Hp & Hp1 & Hp2).
    rewrite E. cbn [rbind].
    assert (Next : forall pos' neg', PosI us (done ++ [r]) pos' -> NegI us (done ++ [r]) neg' ->
      exists pos'' neg'', calculateIntervalResult l us pos' neg' = Ok (pos'', neg'') /\ PosI us (done ++ r :: l) pos'' /\ NegI us (done ++ r :: l) neg'').
    { intros pos' neg' A B. destruct (IH us U2 NL (fun q Hq => NC q (or_intror Hq)) _ _ _ A B) as (p'' & n'' & E' & A' & B').
      exists p'', n''. rewrite <- app_assoc in A', B'. cbn [app] in A', B'. split; [exact E'|]. split; assumption. }
    destruct p.
    + assert (O : occurs r us) by (apply Hp; reflexivity). specialize (Hp1 eq_refl).
      destruct P as [Pp P]. destruct (C37_union pos i Pp Pi) as [Un _].
      destruct Un as (k & Ek & Pk & Hk).
      { destruct P as [[P _]|[P _]]; [left; intros t; unfold inside; lia|right; right; exists (us / 1000); rewrite <- !inside_us_ms; tauto]. }
      rewrite Ek. cbn [rbind]. apply Next.
      * split; [exact Pk|]. right. split; [rewrite inside_us_ms, Hk, <- !inside_us_ms; tauto|].
        intros t Ht. rewrite inside_us_ms, Hk, <- !inside_us_ms in Ht. destruct Ht as [Ht|Ht].
        -- destruct P as [[P _]|[_ P]]; [unfold inside_us in Ht; lia|]. destruct (P t Ht) as (q & Hq & Oq). exists q. split; [apply in_or_app; auto|exact Oq].
        -- exists r. split; [apply in_or_app; right; left; reflexivity|auto].
      * destruct N as [[N1 N2]|(N1 & N2 & N3)]; [left; split; [exact N1|]|right; split; [exact N1|split; [exact N2|]]].
        -- intros q Hq. apply in_app_or in Hq. destruct Hq as [Hq|[<- |[]]]; auto.
        -- intros t q Ht Hq NO. apply in_app_or in Hq. destruct Hq as [Hq|[<- |[]]]; [apply N3; auto|contradiction].
    + assert (O : ~ occurs r us) by (intros O; apply Hp in O; discriminate). specialize (Hp2 eq_refl).
      assert (P' : PosI us (done ++ [r]) pos).
      { destruct P as [Pp [[P1 P2]|[P1 P2]]]; (split; [exact Pp|]); [left; split; [exact P1|]|right; split; [exact P1|]].
        - intros q Hq. apply in_app_or in Hq. destruct Hq as [Hq|[<- |[]]]; auto.
        - intros t Ht. destruct (P2 t Ht) as (q & Hq & Oq). exists q. split; [apply in_or_app; auto|exact Oq]. }
      destruct N as [[N1 N2]|(N1 & N2 & N3)].
      * rewrite N1. cbn [negb]. apply Next; [exact P'|]. right. split; [exact Pi|]. split; [exact Ii|].
        intros t q Ht Hq NO. apply in_app_or in Hq. destruct Hq as [Hq|[<- |[]]]; [elim NO; auto|auto].
      * pose proof N1 as [V _]. rewrite V. cbn [negb].
        destruct (C37_intersect neg i N1 Pi) as (k & Ek & Pk & Hk). rewrite Ek. cbn [rbind]. apply Next; [exact P'|].
        right. split; [exact Pk|]. split; [rewrite inside_us_ms, Hk, <- !inside_us_ms; tauto|].
        intros t q Ht Hq NO. rewrite inside_us_ms, Hk, <- !inside_us_ms in Ht. destruct Ht as [Ht1 Ht2].
        apply in_app_or in Hq. destruct Hq as [Hq|[<- |[]]]; [apply N3; auto|auto].
Qed.
Lemma PosI_init : forall us, PosI us [] (iv_default true).
Proof. intros us. split; [split; [reflexivity|apply Z.le_refl]|]. left. split; [reflexivity|]. intros r []. Qed.
Lemma NegI_init : forall us, NegI us [] (iv_default false).
Proof. intros us. left. split; [reflexivity|]. intros r []. Qed.
Lemma PosI_empty : forall us l pos, PosI us l pos -> exists e, iv_isEmpty pos = Ok e /\
  (e = true -> forall r, In r l -> ~ occurs r us) /\ (e = false -> inside_us pos us /\ forall t, inside_us pos t -> exists r, In r l /\ occurs r t).
Proof.
  intros us l pos [[V L] P]. unfold iv_isEmpty. rewrite V. cbn [negb]. eexists. split; [reflexivity|].
  destruct P as [[P1 P2]|[P1 P2]]; (split; intros E); try tauto; try lia.
  exfalso. unfold inside_us in P1. lia.
Qed.

Theorem C39_access : forall s us, Forall usable (sc_white s) -> Forall usable (sc_black s) ->
  not_last_instant us -> (forall r, In r (sc_white s) \/ In r (sc_black s) -> ~ closing r us) ->
  exists pos i, sc_getCoveringInterval s us = Ok (pos, i) /\ inside_us i us /\
    (pos = true <-> allowed s us) /\
    (pos = true -> forall t, inside_us i t -> allowed s t) /\
    (pos = false -> forall t, inside_us i t -> ~ allowed s t).
Proof.
  intros s us UW UB NL NC. unfold sc_getCoveringInterval.
  destruct (calc_ok (sc_black s) us UB NL (fun r H => NC r (or_intror H)) [] _ _ (PosI_init us) (NegI_init us)) as (bp & bn & Eb & Pb & Nb).
  rewrite Eb. cbn [rbind app] in *. destruct (PosI_empty _ _ _ Pb) as (e & Ee & He1 & He2). rewrite Ee. cbn [rbind].
  destruct e; cbn [negb].
  2: { destruct (He2 eq_refl) as [A B]. exists false, bp. split; [reflexivity|]. split; [exact A|]. unfold allowed, black.
       split; [|split; [discriminate|]].
       - split; [discriminate|]. intros [_ K]. elim K. apply B. exact A.
       - intros _ t Ht [_ K]. elim K. apply B. exact Ht. }
  specialize (He1 eq_refl).
  destruct (calc_ok (sc_white s) us UW NL (fun r H => NC r (or_introl H)) [] _ _ (PosI_init us) (NegI_init us)) as (wp & wn & Ew & Pw & Nw).
  rewrite Ew. cbn [rbind app] in *. destruct (PosI_empty _ _ _ Pw) as (e & Ee' & Hw1 & Hw2). rewrite Ee'. cbn [rbind].
  assert (NB : ~ black s us) by (intros (r & Hr & O); exact (He1 r Hr O)).
  destruct e; cbn [negb andb].
  - specialize (Hw1 eq_refl). assert (NW : ~ white s us) by (intros (r & Hr & O); exact (Hw1 r Hr O)).
    destruct Nw as [[N1 N2]|(N1 & N2 & N3)].
    + rewrite N1. cbn [negb].
      assert (Em : sc_white s = []) by (destruct (sc_white s) as [|r l]; [reflexivity|]; elim (Hw1 r (or_introl eq_refl)); apply N2; left; reflexivity).
      rewrite (dateOnly_ok us NL). unfold iv_new. replace (_ <? _) with true by (unfold DAY; lia). cbn [negb rbind].
      eexists _, _. split; [reflexivity|]. unfold inside_us. cbn [iv_start iv_end].
      pose proof (day_split us) as DS. split; [unfold DAY_US, DAY in *; lia|].
      assert (All : forall t, ~ allowed s t) by (intros t [(r & Hr & _) _]; rewrite Em in Hr; destruct Hr).
      split; [split; [discriminate|intros K; elim (All _ K)]|]. split; [discriminate|]. intros _ t _. apply All.
    + pose proof N1 as [V _]. rewrite V. cbn [negb]. exists false, wn. split; [reflexivity|]. split; [exact N2|].
      split; [split; [discriminate|intros [K _]; elim (NW K)]|]. split; [discriminate|].
      intros _ t Ht [(r & Hr & O) _]. exact (N3 t r Ht Hr (Hw1 r Hr) O).
  - destruct (Hw2 eq_refl) as [A B]. destruct Nb as [[N1 N2]|(N1 & N2 & N3)].
    + rewrite N1. exists true, wp. split; [reflexivity|]. split; [exact A|].
      assert (Em : sc_black s = []) by (destruct (sc_black s) as [|r l]; [reflexivity|]; elim (He1 r (or_introl eq_refl)); apply N2; left; reflexivity).
      assert (NBt : forall t, ~ black s t) by (intros t (r & Hr & _); rewrite Em in Hr; destruct Hr).
      split; [split; [intros _; split; [apply B; exact A|apply NBt]|reflexivity]|]. split; [|discriminate].
      intros _ t Ht. split; [apply B; exact Ht|apply NBt].
    + pose proof N1 as [V _]. rewrite V. destruct Pw as [Pp _]. destruct (C37_intersect wp bn Pp N1) as (k & Ek & _ & Hk). rewrite Ek. cbn [rbind].
      exists true, k. split; [reflexivity|]. split; [rewrite inside_us_ms, Hk, <- !inside_us_ms; tauto|].
      split; [split; [intros _; split; [apply B; exact A|exact NB]|reflexivity]|]. split; [|discriminate].
      intros _ t Ht. rewrite inside_us_ms, Hk, <- !inside_us_ms in Ht. destruct Ht as [H1 H2]. split; [apply B; exact H1|].
      intros (r & Hr & O). exact (N3 t r H2 Hr (He1 r Hr) O).
Qed.

(** *** The lists are sets *)
Lemma compare_spec : forall a b, (ri_compare a b < 0 <-> ri_lt a b) /\ (ri_compare a b = 0 <-> a = b) /\ (0 < ri_compare a b <-> ri_lt b a).
Proof.
  intros [a1 a2 a3 a4 a5 a6] [b1 b2 b3 b4 b5 b6]. unfold ri_compare, ri_lt. cbn [ri_startDate ri_endDate ri_startHour ri_endHour ri_n ri_unit].
  assert (EQ : Ri a1 a2 a3 a4 a5 a6 = Ri b1 b2 b3 b4 b5 b6 <-> a1 = b1 /\ a2 = b2 /\ a3 = b3 /\ a4 = b4 /\ a5 = b5 /\ a6 = b6).
  { split; [intros E; injection E; tauto|]. intros (-> & -> & -> & -> & -> & ->). reflexivity. }
  rewrite EQ. clear EQ.
  repeat match goal with |- context [?x <? ?y] => destruct (Z.ltb_spec x y); try lia end.
Qed.
Theorem C38_compare : forall a b, (ri_compare a b < 0 <-> ri_lt a b) /\ (ri_compare a b = 0 <-> a = b) /\ (0 < ri_compare a b <-> ri_lt b a).
Proof. exact compare_spec. Qed.
Lemma ri_lt_trans : forall a b c, ri_lt a b -> ri_lt b c -> ri_lt a c.
Proof. unfold ri_lt. intros. lia. Qed.
Lemma ri_lt_irrefl : forall a, ~ ri_lt a a.
Proof. unfold ri_lt. intros. lia. Qed.

Lemma add_in : forall l e r, In r (sortedSetAdd l e) <-> In r l \/ r = e.
Proof.
  induction l as [|x l IH]; intros e r; cbn [sortedSetAdd].
  - cbn [In]. split; [intros [<- |[]]; auto|intros [[]| ->]; auto].
  - destruct (ri_compare x e =? 0) eqn:E.
    + apply Z.eqb_eq, compare_spec in E. subst x. cbn [In]. split; [tauto|]. intros [K|K]; [exact K|subst; auto].
    + destruct (negb (ri_compare x e <? 0)); cbn [In]; [split; [intros [<- |K]; auto|intros [K|K]; [auto|subst; auto]]|].
      rewrite IH. tauto.
Qed.
Lemma add_sorted : forall l e, StronglySorted ri_lt l -> StronglySorted ri_lt (sortedSetAdd l e).
Proof.
  induction l as [|x l IH]; intros e H; cbn [sortedSetAdd].
  - constructor; [constructor|constructor].
  - inversion H as [|? ? H1 H2]; subst. destruct (ri_compare x e =? 0) eqn:E; [exact H|]. pose proof (compare_spec x e) as (C1 & C2 & C3).
    destruct (ri_compare x e <? 0) eqn:E2; cbn [negb].
    + constructor; [apply IH; exact H1|]. apply Forall_forall. intros r Hr. apply add_in in Hr. destruct Hr as [Hr| ->].
      * rewrite Forall_forall in H2. auto. * apply C1. lia.
    + assert (L : ri_lt e x) by (apply C3; lia). constructor; [exact H|]. constructor; [exact L|].
      rewrite Forall_forall in *. intros r Hr. eapply ri_lt_trans; [exact L|auto].
Qed.
Lemma sorted_unique : forall l l', StronglySorted ri_lt l -> StronglySorted ri_lt l' -> (forall r, In r l <-> In r l') -> l = l'.
Proof.
  induction l as [|x l IH]; intros [|y l'] H H' E.
  - reflexivity.
  - exfalso. apply (E y). left. reflexivity.
  - exfalso. apply (E x). left. reflexivity.
  - inversion H as [|? ? H1 H2]; inversion H' as [|? ? H1' H2']; subst. rewrite Forall_forall in H2, H2'.
    assert (x = y).
    { destruct (proj1 (E x) (or_introl eq_refl)) as [K|K]; [auto|]. destruct (proj2 (E y) (or_introl eq_refl)) as [K'|K']; [auto|].
      elim (ri_lt_irrefl x). eapply ri_lt_trans; [apply H2; exact K'|apply H2'; exact K]. }
    subst y. f_equal. apply IH; auto. intros r. split; intros K.
    + destruct (proj1 (E r) (or_intror K)) as [Kx|K']; [subst r; elim (ri_lt_irrefl x); auto|exact K'].
    + destruct (proj2 (E r) (or_intror K)) as [Kx|K']; [subst r; elim (ri_lt_irrefl x); auto|exact K'].
Qed.
Theorem C39_sets : forall ops r,
  (In r (sc_white (sc_run ops)) <-> In (AddWhite r) ops) /\ (In r (sc_black (sc_run ops)) <-> In (AddBlack r) ops) /\
  StronglySorted ri_lt (sc_white (sc_run ops)) /\ StronglySorted ri_lt (sc_black (sc_run ops)).
Proof.
  intros ops r. unfold sc_run.
  assert (G : forall ops s, StronglySorted ri_lt (sc_white s) -> StronglySorted ri_lt (sc_black s) ->
    let s' := fold_left sc_step ops s in
    (In r (sc_white s') <-> In r (sc_white s) \/ In (AddWhite r) ops) /\ (In r (sc_black s') <-> In r (sc_black s) \/ In (AddBlack r) ops) /\
    StronglySorted ri_lt (sc_white s') /\ StronglySorted ri_lt (sc_black s')).
  { clear ops. induction ops as [|o ops IH]; intros s HW HB; cbn [fold_left].
    - cbn [In]. tauto.
    - destruct (IH (sc_step s o)) as (A & B & C & D).
      + destruct o; cbn [sc_step sc_addWhite sc_addBlack sc_white]; [apply add_sorted|]; assumption.
      + destruct o; cbn [sc_step sc_addWhite sc_addBlack sc_black]; [|apply add_sorted]; assumption.
      + split; [|split; [|split; assumption]].
        * etransitivity; [exact A|]. destruct o as [x|x]; cbn [sc_step sc_addWhite sc_addBlack sc_white In].
          -- rewrite add_in. split; [intros [[K|K]|K]; subst; auto|intros [K|[K|K]]; [auto|injection K as <-; auto|auto]].
          -- split; [tauto|intros [K|[K|K]]; [auto|discriminate|auto]].
        * etransitivity; [exact B|]. destruct o as [x|x]; cbn [sc_step sc_addWhite sc_addBlack sc_black In].
          -- split; [tauto|intros [K|[K|K]]; [auto|discriminate|auto]].
          -- rewrite add_in. split; [intros [[K|K]|K]; subst; auto|intros [K|[K|K]]; [auto|injection K as <-; auto|auto]]. }
  destruct (G ops sc_empty ltac:(constructor) ltac:(constructor)) as (A & B & C & D). cbn [sc_empty sc_white sc_black In] in A, B.
  split; [tauto|]. split; [tauto|]. split; assumption.
Qed.
(** The schedule does not depend on the order or the number of times of the additions. *)
Theorem C39_order_independent : forall ops ops', (forall o, In o ops <-> In o ops') -> sc_run ops = sc_run ops'.
Proof.
  intros ops ops' E. pose proof (C39_sets ops) as A. pose proof (C39_sets ops') as B.
  destruct (A ri_default) as (_ & _ & A1 & A2). destruct (B ri_default) as (_ & _ & B1 & B2).
  assert (W : sc_white (sc_run ops) = sc_white (sc_run ops')).
  { apply sorted_unique; auto. intros r. destruct (A r) as (K & _), (B r) as (K' & _). rewrite K, K'. apply E. }
  assert (Bl : sc_black (sc_run ops) = sc_black (sc_run ops')).
  { apply sorted_unique; auto. intros r. destruct (A r) as (_ & K & _), (B r) as (_ & K' & _). rewrite K, K'. apply E. }
  destruct (sc_run ops) as [w1 b1], (sc_run ops') as [w2 b2]. cbn [sc_white sc_black] in *. congruence.
Qed.
(** The two together: the decision for a schedule built by any sequence of additions. *)
Corollary C39_access_ops : forall ops us,
  (forall r, In (AddWhite r) ops \/ In (AddBlack r) ops -> usable r /\ ~ closing r us) -> not_last_instant us ->
  exists pos i, sc_getCoveringInterval (sc_run ops) us = Ok (pos, i) /\ inside_us i us /\
    (pos = true <-> (exists r, In (AddWhite r) ops /\ occurs r us) /\ ~ (exists r, In (AddBlack r) ops /\ occurs r us)).
Proof.
  intros ops us H NL. pose proof (C39_sets ops) as S.
  destruct (C39_access (sc_run ops) us) as (pos & i & E & I & P & _).
  - apply Forall_forall. intros r Hr. apply H. left. apply S. exact Hr.
  - apply Forall_forall. intros r Hr. apply H. right. apply S. exact Hr.
  - exact NL.
  - intros r Hr. apply H. destruct Hr as [Hr|Hr]; [left|right]; apply S; exact Hr.
  - exists pos, i. split; [exact E|]. split; [exact I|]. rewrite P. unfold allowed, white, black.
    split; (intros [(r & Hr & O) N]; split; [exists r; split; [apply S; exact Hr|exact O]|intros (q & Hq & Oq); apply N; exists q; split; [apply S; exact Hq|exact Oq]]).
Qed.

(** At the touching point of two adjacent white intervals on a day, access is allowed but
    the call raises. *)
Theorem C39_adjacent_refuted : forall d a b c r1 r2, 0 <= a -> a < b -> b < c -> c <= 24 ->
  1 <= EPOCH_ORD + d / DAY <= 3652059 ->
  ri_new d d a b None None = Ok r1 -> ri_new d d b c None None = Ok r2 ->
  let us := d / DAY * DAY_US + b * HOUR_US in
  let s := sc_run [AddWhite r1; AddWhite r2] in
  allowed s us /\ sc_getCoveringInterval s us = Err RuntimeError.
Proof.
  intros d a b c r1 r2 Ha Hab Hbc Hc HD E1 E2 us s.
  destruct (C38_constructor d d a b None None) as [K1 _]. rewrite K1 in E1 by (cbn; lia).
  destruct (C38_constructor d d b c None None) as [K2 _]. rewrite K2 in E2 by (cbn; lia). clear K1 K2.
  assert (M1 : made r1) by (exists d, d, a, b, None, None; rewrite <- E1; destruct (C38_constructor d d a b None None) as [K _]; apply K; lia).
  assert (M2 : made r2) by (exists d, d, b, c, None, None; rewrite <- E2; destruct (C38_constructor d d b c None None) as [K _]; apply K; lia).
  inversion E1; inversion E2; subst r1 r2; clear E1 E2. set (D := d / DAY) in *.
  assert (Eday : us / DAY_US = D).
  { unfold us. symmetry. apply (Z.div_unique _ _ D (b * HOUR_US)); unfold DAY_US, HOUR_US; lia. }
  assert (NL : not_last_instant us).
  { unfold not_last_instant. rewrite Z.mod_eq by (unfold DAY_US; lia). rewrite Eday. unfold us, DAY_US, HOUR_US. lia. }
  assert (Es : s = Sched [Ri (D * DAY) (D * DAY) a b 0 UNIT_NONE; Ri (D * DAY) (D * DAY) b c 0 UNIT_NONE] []).
  { unfold s, sc_run. cbn [fold_left sc_step]. unfold sc_addWhite. cbn [sc_empty sc_white sc_black sortedSetAdd]. unfold ri_compare. cbn [ri_startDate ri_endDate ri_startHour ri_endHour ri_n ri_unit].
    rewrite Z.ltb_irrefl. replace (a <? b) with true by lia. reflexivity. }
  assert (DD : D * DAY / DAY = D) by (apply Z.div_mul; unfold DAY; lia).
  assert (Rep : forall x y, repeats_on (Ri (D * DAY) (D * DAY) x y 0 UNIT_NONE) D).
  { intros x y. unfold repeats_on. cbn [ri_startDate ri_endDate ri_unit]. rewrite DD. destruct (date_of D) as [[? ?] ?]. split; [lia|]. left. reflexivity. }
  rewrite Es. split.
  - split.
    + exists (Ri (D * DAY) (D * DAY) b c 0 UNIT_NONE). cbn [sc_white In]. split; [tauto|]. exists D. split; [apply Rep|].
      cbn [ri_startHour ri_endHour]. unfold us, HOUR_US. lia.
    + intros (r & [] & _).
  - assert (G : forall x y, 0 <= x -> x < y -> y <= 24 -> x <= b <= y -> ri_getInterval (Ri (D * DAY) (D * DAY) x y 0 UNIT_NONE) us = Ok (true, Iv (D * DAY + x * HOUR) (D * DAY + y * HOUR) true)).
    { intros x y Hx Hxy Hy Hb. unfold ri_getInterval, hasIntervalOnDate. rewrite (dateOnly_ok us NL), Eday. cbn [ri_startDate ri_endDate ri_startHour ri_endHour ri_n ri_unit].
      rewrite !Z.ltb_irrefl. cbn [orb]. rewrite Z.eqb_refl. cbn [rbind negb].
      unfold us, DAY, HOUR, DAY_US, HOUR_US. replace (_ <? _) with false by lia. replace (_ <? _) with false by lia.
      unfold iv_new. replace (_ <? _) with true by lia. reflexivity. }
    unfold sc_getCoveringInterval. cbn [sc_white sc_black calculateIntervalResult rbind]. rewrite !G by lia.
    cbn [rbind]. unfold iv_isEmpty at 1. cbn [iv_default iv_valid negb rbind iv_start iv_end]. rewrite Z.eqb_refl. cbn [negb].
    unfold iv_unionWith at 1. unfold iv_isEmpty at 1. cbn [iv_default iv_valid negb rbind iv_start iv_end]. rewrite Z.eqb_refl. cbn [rbind].
    destruct (C37_union_touching_refuted (D * DAY + a * HOUR) (D * DAY + b * HOUR) (D * DAY + c * HOUR)) as [K _]; [unfold HOUR; lia|unfold HOUR; lia|].
    rewrite K. reflexivity.
Qed.

(** ** Concrete cases *)
(** 2015-08-25, weekly over a month, 5:00 to 10:00; 2015-08-26 repeating monthly; a black
    interval on one day *)
Definition ex_day : Z := 1440460800000.
Definition ex_weekly : ri := Ri ex_day (ex_day + 31 * DAY) 5 10 7 UNIT_DAY.
Definition ex_monthly : ri := Ri (ex_day + DAY) (ex_day + 400 * DAY) 6 8 1 UNIT_MONTH.
Definition ex_black : ri := Ri (ex_day + 7 * DAY) (ex_day + 7 * DAY) 9 12 0 UNIT_NONE.
Example ex_made : ri_new (ex_day + 12345) (ex_day + 31 * DAY) 5 10 (Some 7) (Some UNIT_DAY) = Ok ex_weekly /\
  ri_new (ex_day + DAY) (ex_day + 400 * DAY) 6 8 (Some 1) (Some UNIT_MONTH) = Ok ex_monthly /\
  ri_new (ex_day + 7 * DAY) (ex_day + 7 * DAY) 9 12 None None = Ok ex_black.
Proof. vm_compute. auto. Qed.
Example ex_usable : Forall usable [ex_weekly; ex_monthly; ex_black].
Proof.
  destruct ex_made as (A & B & C).
  assert (T : forall r, made r -> (ri_unit r = UNIT_NONE \/ ri_n r <> 0) -> 1 <= EPOCH_ORD + ri_startDate r / DAY -> EPOCH_ORD + ri_endDate r / DAY <= 3652059 -> usable r).
  { intros r M N L1 L2. split; [exact M|]. split; [|tauto]. intros U. destruct N as [N|N]; [|exact N]. rewrite N in U. destruct U as [U|[U|U]]; discriminate. }
  repeat apply Forall_cons; [| | |apply Forall_nil].
  - apply T; [do 6 eexists; exact A|right; discriminate|vm_compute; discriminate|vm_compute; discriminate].
  - apply T; [do 6 eexists; exact B|right; discriminate|vm_compute; discriminate|vm_compute; discriminate].
  - apply T; [do 6 eexists; exact C|left; reflexivity|vm_compute; discriminate|vm_compute; discriminate].
Qed.
Definition ex_sched : sched := sc_run [AddWhite ex_monthly; AddWhite ex_weekly; AddBlack ex_black; AddWhite ex_weekly].
(** a week later at 8:30:00.25: allowed from 5:00 to 9:00 (the black interval starts at 9) *)
Example C39_ex1 : sc_getCoveringInterval ex_sched (1000 * (ex_day + 7 * DAY + 8 * HOUR + 1800000) + 250) =
  Ok (true, Iv (ex_day + 7 * DAY + 5 * HOUR) (ex_day + 7 * DAY + 9 * HOUR) true).
Proof. reflexivity. Qed.
(** the 26th of the next month at 7:00 *)
Example C39_ex2 : sc_getCoveringInterval ex_sched (1000 * (ex_day + 32 * DAY + 7 * HOUR)) =
  Ok (true, Iv (ex_day + 32 * DAY + 6 * HOUR) (ex_day + 32 * DAY + 8 * HOUR) true).
Proof. reflexivity. Qed.
(** in the black interval; and on a day with nothing *)
Example C39_ex3 : sc_getCoveringInterval ex_sched (1000 * (ex_day + 7 * DAY + 9 * HOUR)) =
  Ok (false, Iv (ex_day + 7 * DAY + 9 * HOUR) (ex_day + 7 * DAY + 12 * HOUR) true) /\
  sc_getCoveringInterval ex_sched (1000 * (ex_day + 2 * DAY)) = Ok (false, Iv (ex_day + 2 * DAY) (ex_day + 3 * DAY) true).
Proof. split; reflexivity. Qed.
(** the hypotheses of the access theorem hold at 8:30 on the seventh day *)
Example C39_ex4 : let us := 1000 * (ex_day + 7 * DAY + 8 * HOUR + 1800000) in
  not_last_instant us /\ (forall r, In r (sc_white ex_sched) \/ In r (sc_black ex_sched) -> usable r /\ ~ closing r us).
Proof.
  cbv zeta. split; [vm_compute; reflexivity|]. intros r H.
  assert (I : In r [ex_weekly; ex_monthly; ex_black]).
  { replace (sc_white ex_sched) with [ex_weekly; ex_monthly] in H by reflexivity. replace (sc_black ex_sched) with [ex_black] in H by reflexivity.
    destruct H as [[<- |[<- |[]]]|[<- |[]]]; cbn [In]; tauto. }
  pose proof ex_usable as U. rewrite Forall_forall in U. specialize (U r I). split; [exact U|].
  rewrite closing_iff by apply U. intros (_ & E & _). revert E. clear -I. destruct I as [<- |[<- |[<- |[]]]]; vm_compute; discriminate.
Qed.
(** a closing time *)
Example C38_ex1 : closing ex_black (1000 * (ex_day + 7 * DAY + 12 * HOUR)) /\
  ri_getInterval ex_black (1000 * (ex_day + 7 * DAY + 12 * HOUR)) = Ok (true, Iv (ex_day + 7 * DAY + 9 * HOUR) (ex_day + 7 * DAY + 12 * HOUR) true).
Proof.
  split; [|reflexivity]. exists (ex_day / DAY + 7). split; [|split; reflexivity].
  unfold repeats_on. cbv zeta. destruct (date_of (ex_day / DAY + 7)) as [[? ?] ?]. destruct (date_of (ri_startDate ex_black / DAY)) as [[? ?] ?].
  split; [vm_compute; split; discriminate|]. left. reflexivity.
Qed.
(** rounding into the next day, where an interval starts at midnight, raises *)
Example C38_ex2 : ri_getInterval (Ri ex_day ex_day 0 5 0 UNIT_NONE) (1000 * ex_day - 300) = Err RuntimeError.
Proof. reflexivity. Qed.
Example C37_ex1 : iv_intersectWith (Iv 10 20 true) (Iv 15 30 true) = Ok (Iv 15 20 true) /\
  iv_unionWith (Iv 10 20 true) (Iv 15 30 true) = Ok (Iv 10 30 true) /\ iv_intersectWith (Iv 10 20 true) (Iv 20 30 true) = Ok (Iv 20 20 true).
Proof. vm_compute. auto. Qed.

Print Assumptions C37_constructor.
Print Assumptions C37_covers.
Print Assumptions C37_isEmpty.
Print Assumptions C37_intersect.
Print Assumptions C37_union.
Print Assumptions C37_invalid.
Print Assumptions C37_bounds.
Print Assumptions C37_union_touching_refuted.
Print Assumptions C38_constructor.
Print Assumptions C38_getInterval.
Print Assumptions C38_compare.
Print Assumptions C38_closing_hour_refuted.
Print Assumptions C38_last_instant_refuted.
Print Assumptions C38_zero_repeats_refuted.
Print Assumptions C39_access.
Print Assumptions C39_sets.
Print Assumptions C39_order_independent.
Print Assumptions C39_access_ops.
Print Assumptions C39_adjacent_refuted.
