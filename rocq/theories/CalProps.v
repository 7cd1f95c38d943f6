(** * Property C40: calendar and ISO strings *)
From Verif Require Import Base BaseLemmas UriModel UriProofs CalModel CalSpec CalProofs.
From Coq Require Import ZifyBool.
Local Open Scope res_scope.

(** ** The calendar arithmetic is the Gregorian calendar *)
Lemma is_leap_spec : forall y, is_leap y = true <-> leap_year y.
Proof.
  intros y. rewrite is_leap_iff. unfold leap_year.
  rewrite <- !Z.mod_divide by lia. tauto.
Qed.
Lemma month_has_iff : forall y m d, 1 <= m <= 12 -> (month_has y m d <-> 1 <= d <= days_in_month (is_leap y) m).
Proof.
  intros y m d H. pose proof (is_leap_spec y) as L. unfold month_has, days_in_month.
  assert (T : dim_table m = if (m =? 2) then 28 else if (m =? 4) || (m =? 6) || (m =? 9) || (m =? 11) then 30 else 31).
  { assert (K : forall k, (1 <= k <= 12)%nat -> dim_table (Z.of_nat k) = let m := Z.of_nat k in if (m =? 2) then 28 else if (m =? 4) || (m =? 6) || (m =? 9) || (m =? 11) then 30 else 31).
    { intros k Hk. assert (I : In k (seq 1 12)) by (apply in_seq; lia). cbn in I. decompose [or] I; subst; try tauto; reflexivity. }
    specialize (K (Z.to_nat m)). rewrite Z2Nat.id in K by lia. apply K. lia. }
  rewrite T. destruct (is_leap y).
  - assert (LE : d = 29 /\ leap_year y <-> d = 29) by tauto. rewrite LE. destruct (m =? 2) eqn:E2; cbn [andb]; [lia|].
    destruct ((m =? 4) || (m =? 6) || (m =? 9) || (m =? 11)) eqn:E; lia.
  - assert (LE : d = 29 /\ leap_year y <-> 1 = 0) by (split; [intros [_ K]; apply L in K; discriminate|discriminate]). rewrite LE, andb_false_r.
    destruct (m =? 2) eqn:E2; [lia|]. destruct ((m =? 4) || (m =? 6) || (m =? 9) || (m =? 11)) eqn:E; lia.
Qed.

Theorem C40_calendar : forall n, day_after (ord2ymd n) (ord2ymd (n + 1)).
Proof.
  intros n. destruct (ord2ymd n) as [[y m] d] eqn:E. destruct (ord2ymd (n + 1)) as [[y' m'] d'] eqn:E'.
  apply ord2ymd_ok in E, E'. destruct E as [E [O1 O2]]. destruct E' as [E' O'].
  pose proof (month_has_iff y m (d + 1) O1) as MH. unfold day_after.
  assert (Inj : forall a b c, date_ok a b c -> ymd2ord a b c = n + 1 -> (y', m', d') = (a, b, c)).
  { intros a b c Oa Ea. destruct (ymd2ord_inj y' m' d' a b c O' Oa ltac:(lia)) as (-> & -> & ->). reflexivity. }
  destruct (Z.eq_dec d (days_in_month (is_leap y) m)) as [El|El].
  - assert (~ month_has y m (d + 1)) by (intros K; apply MH in K; lia).
    destruct (Z.eq_dec m 12) as [->|Em].
    + right. right. split; [assumption|]. split; [reflexivity|].
      assert (Od : date_ok (y + 1) 1 1) by (split; [lia|]; pose proof (dim31 (is_leap (y + 1)) 1 ltac:(lia)); lia).
      apply Inj; [exact Od|]. unfold ymd2ord in *. rewrite dby_step.
      replace (days_in_month (is_leap y) 12) with 31 in El by (destruct (is_leap y); reflexivity).
      replace (days_before_month (is_leap (y + 1)) 1) with 0 by (destruct (is_leap (y + 1)); reflexivity).
      replace (days_before_month (is_leap y) 12) with (334 + (if is_leap y then 1 else 0)) in E by (destruct (is_leap y); reflexivity).
      lia.
    + right. left. split; [assumption|]. split; [lia|]. apply Inj.
      * split; [lia|]. pose proof (dim31 (is_leap y) (m + 1) ltac:(lia)). lia.
      * unfold ymd2ord in *.
        assert (St : days_before_month (is_leap y) (m + 1) = days_before_month (is_leap y) m + days_in_month (is_leap y) m).
        { clear -O1 Em. generalize (is_leap y). intros l.
          assert (K : forall k, (1 <= k <= 11)%nat -> days_before_month l (Z.of_nat k + 1) = days_before_month l (Z.of_nat k) + days_in_month l (Z.of_nat k)).
          { intros k Hk. assert (I : In k (seq 1 11)) by (apply in_seq; lia). cbn in I. decompose [or] I; subst; try tauto; destruct l; reflexivity. }
          specialize (K (Z.to_nat m)). rewrite Z2Nat.id in K by lia. apply K. lia. }
        lia.
  - left. split; [apply MH; lia|]. apply Inj; [split; [lia|lia]|]. unfold ymd2ord in *. lia.
Qed.
Theorem C40_epoch : ord2ymd EPOCH_ORD = (1970, 1, 1).
Proof. reflexivity. Qed.

(** ** The string of a time *)
(** The first second of year 1000 and of year 10000. *)
Definition year_1000 : Z := -30610224000.
Definition year_10000 : Z := 253402300800.

Lemma two_split : forall n, 0 <= n < 100 -> n = 10 * (n / 10) + n mod 10 /\ 0 <= n / 10 <= 9 /\ 0 <= n mod 10 <= 9.
Proof. intros. zdiv. Qed.

(** [toIsoString] of a whole second is the text of the date that is as many days from
    1970-01-01 and as many hours, minutes and seconds into the day as the time says. *)
Theorem C40_iso_text : forall s, year_1000 <= s < year_10000 -> exists str y m d H M S,
  toIsoString (s * 1000) = Ok str /\ iso_text str y m d H M S /\
  ord2ymd (EPOCH_ORD + s / 86400) = (y, m, d) /\ s mod 86400 = H * 3600 + M * 60 + S /\
  0 <= H < 24 /\ 0 <= M < 60 /\ 0 <= S < 60.
Proof.
  intros s Hs. destruct (fromSeconds_ok s Hs) as (t & E & Y & O & HH & HM & HS & V).
  exists (dt_iso t), (dt_y t), (dt_m t), (dt_d t), (dt_H t), (dt_M t), (dt_S t).
  split; [unfold toIsoString; rewrite round1000_exact, E; reflexivity|].
  destruct O as [O1 O2]. pose proof (dim31 (is_leap (dt_y t)) (dt_m t) O1) as D31.
  split; [|split; [|split; [|tauto]]].
  - rewrite iso_fields by assumption. unfold iso_text.
    exists (dt_y t / 1000), (dt_y t / 100 mod 10), (dt_y t / 10 mod 10), (dt_y t mod 10),
      (dt_m t / 10), (dt_m t mod 10), (dt_d t / 10), (dt_d t mod 10),
      (dt_H t / 10), (dt_H t mod 10), (dt_M t / 10), (dt_M t mod 10), (dt_S t / 10), (dt_S t mod 10).
    pose proof (two_split (dt_m t) ltac:(lia)). pose proof (two_split (dt_d t) ltac:(lia)). pose proof (two_split (dt_H t) ltac:(lia)).
    pose proof (two_split (dt_M t) ltac:(lia)). pose proof (two_split (dt_S t) ltac:(lia)).
    assert (Yd : dt_y t = 1000 * (dt_y t / 1000) + 100 * (dt_y t / 100 mod 10) + 10 * (dt_y t / 10 mod 10) + dt_y t mod 10 /\
       0 <= dt_y t / 1000 <= 9 /\ 0 <= dt_y t / 100 mod 10 <= 9 /\ 0 <= dt_y t / 10 mod 10 <= 9 /\ 0 <= dt_y t mod 10 <= 9) by (clear -Y; zdiv).
    split; [reflexivity|]. split; [|tauto].
    repeat (apply Forall_cons; [tauto|]). apply Forall_nil.
  - unfold dt_fromSeconds in E. rewrite Z.add_comm in E. destruct (ord2ymd (EPOCH_ORD + s / 86400)) as [[y m] d].
    destruct (_ && _) in E; inversion E. reflexivity.
  - unfold dt_fromSeconds in E. destruct (ord2ymd (s / 86400 + EPOCH_ORD)) as [[y m] d].
    destruct (_ && _) in E; inversion E. cbn [dt_H dt_M dt_S]. clear. zdiv.
Qed.

Theorem C40_round_trip : forall s, year_1000 <= s < year_10000 -> exists str,
  toIsoString (s * 1000) = Ok str /\ fromIsoString str = Ok (s * 1000).
Proof. intros s H. destruct (iso_round_trip s H) as (str & A & B & _). eauto. Qed.

(** A time with a fraction of a second reads back as the nearest whole second. *)
Theorem C40_rounding : forall t, year_1000 * 1000 <= t < (year_10000 - 1) * 1000 -> exists str v,
  toIsoString t = Ok str /\ fromIsoString str = Ok v /\ v mod 1000 = 0 /\ v - 500 <= t <= v + 500.
Proof.
  intros t H.
  assert (R : round1000 t = t / 1000 /\ t mod 1000 <= 500 \/ round1000 t = t / 1000 + 1 /\ 500 <= t mod 1000).
  { unfold round1000. destruct (t mod 1000 <? 500) eqn:A, (500 <? t mod 1000) eqn:B, (Z.even (t / 1000)) eqn:C; lia. }
  destruct (iso_round_trip (round1000 t)) as (str & A & B & _).
  { unfold iso_range, year_1000, year_10000 in *. clear -H R. Z.div_mod_to_equations. lia. }
  exists str, (round1000 t * 1000). unfold toIsoString in *. rewrite round1000_exact in A. split; [exact A|]. split; [exact B|].
  split; [apply Z.mod_mul; lia|]. clear -R. Z.div_mod_to_equations. lia.
Qed.

(** Whatever fromIsoString accepts, it reads as the time it names: for every text of a
    valid date and time. *)
Lemma dig2 : forall a b, 0 <= a <= 9 -> 0 <= b <= 9 -> two (10 * a + b) = [48 + a; 48 + b].
Proof. intros. unfold two. f_equal; [|f_equal]; zdiv. Qed.
Theorem C40_fromIso : forall str y m d H M S, iso_text str y m d H M S -> 1000 <= y -> 1 <= m <= 12 -> month_has y m d ->
  H < 24 -> M < 60 -> S < 60 ->
  exists n, ord2ymd n = (y, m, d) /\ fromIsoString str = Ok (((n - EPOCH_ORD) * 86400 + H * 3600 + M * 60 + S) * 1000).
Proof.
  intros str y m d H M S T Hy Hm Hd HH HM HS.
  destruct T as (y1 & y2 & y3 & y4 & m1 & m2 & d1 & d2 & h1 & h2 & n1 & n2 & s1 & s2 & -> & F & Ey & Em & Ed & EH & EM & ES).
  repeat match goal with F : Forall _ (_ :: _) |- _ => let K := fresh "K" in pose proof (Forall_inv F) as K; cbn beta in K; apply Forall_inv_tail in F end.
  apply (month_has_iff y m d Hm) in Hd.
  exists (ymd2ord y m d). split.
  - destruct (ord2ymd (ymd2ord y m d)) as [[a b] c] eqn:E. apply ord2ymd_ok in E. destruct E as [E O].
    destruct (ymd2ord_inj a b c y m d O ltac:(split; assumption) E) as (-> & -> & ->). reflexivity.
  - pose proof (fromIso_iso (Dt y m d H M S)) as R. cbn [dt_y dt_m dt_d dt_H dt_M dt_S] in R.
    specialize (R ltac:(lia) ltac:(split; assumption) ltac:(lia) ltac:(lia) ltac:(lia)).
    change ((ymd2ord y m d - EPOCH_ORD) * 86400 + H * 3600 + M * 60 + S) with (dt_seconds (Dt y m d H M S)).
    rewrite <- R. f_equal. rewrite iso_fields by (cbn; lia). cbn [dt_y dt_m dt_d dt_H dt_M dt_S].
    replace (y / 1000) with y1 by zdiv. replace (y / 100 mod 10) with y2 by zdiv. replace (y / 10 mod 10) with y3 by zdiv. replace (y mod 10) with y4 by zdiv.
    replace (m / 10) with m1 by zdiv. replace (m mod 10) with m2 by zdiv. replace (d / 10) with d1 by zdiv. replace (d mod 10) with d2 by zdiv.
    replace (H / 10) with h1 by zdiv. replace (H mod 10) with h2 by zdiv. replace (M / 10) with n1 by zdiv. replace (M mod 10) with n2 by zdiv.
    replace (S / 10) with s1 by zdiv. replace (S mod 10) with s2 by zdiv. reflexivity.
Qed.

(** ** Order *)
Lemma str_lt_cons : forall c a b, str_lt a b -> str_lt (c :: a) (c :: b).
Proof.
  intros c a b [(p & x & y & r & s & -> & -> & L)|(x & s & ->)].
  - left. exists (c :: p), x, y, r, s. auto.
  - right. exists x, s. auto.
Qed.
Lemma str_lt_here : forall x y a b, x < y -> str_lt (x :: a) (y :: b).
Proof. intros x y a b L. left. exists [], x, y, a, b. auto. Qed.

Theorem C40_order : forall s t a b, year_1000 <= s -> s < t -> t < year_10000 ->
  toIsoString (s * 1000) = Ok a -> toIsoString (t * 1000) = Ok b -> str_lt a b.
Proof.
  intros s t a b H1 H2 H3 Ea Eb. unfold year_1000, year_10000 in *.
  destruct (fromSeconds_ok s ltac:(unfold iso_range; lia)) as (u & E & Y & O & HH & HM & HS & V).
  destruct (fromSeconds_ok t ltac:(unfold iso_range; lia)) as (v & E' & Y' & O' & HH' & HM' & HS' & V').
  unfold toIsoString in Ea, Eb. rewrite round1000_exact in Ea, Eb. rewrite E in Ea. rewrite E' in Eb. cbn [rbind] in Ea, Eb.
  injection Ea as <-. injection Eb as <-. rewrite !iso_fields by assumption.
  pose proof (dim31 (is_leap (dt_y u)) (dt_m u) (proj1 O)) as D. pose proof (dim31 (is_leap (dt_y v)) (dt_m v) (proj1 O')) as D'.
  assert (L : ymd_lt (dt_y u) (dt_m u) (dt_d u) (dt_y v) (dt_m v) (dt_d v) \/
     (dt_y u = dt_y v /\ dt_m u = dt_m v /\ dt_d u = dt_d v) /\ (dt_H u < dt_H v \/ dt_H u = dt_H v /\ (dt_M u < dt_M v \/ dt_M u = dt_M v /\ dt_S u < dt_S v))).
  { unfold dt_seconds in V, V'. destruct (ymd_tri (dt_y u) (dt_m u) (dt_d u) (dt_y v) (dt_m v) (dt_d v)) as [L|[L|L]]; [left; exact L| |].
    - right. split; [exact L|]. destruct L as (L1 & L2 & L3). rewrite L1, L2, L3 in V. lia.
    - apply ymd2ord_mono in L; [|assumption|assumption]. lia. }
  destruct O as [O1 O2]. destruct O' as [O1' O2'].
  assert (P2 : forall x y a b, 0 <= x < y -> y < 100 -> str_lt (48 + x / 10 :: 48 + x mod 10 :: a) (48 + y / 10 :: 48 + y mod 10 :: b)).
  { intros x y a b Hx Hy. assert (C : x / 10 < y / 10 \/ x / 10 = y / 10 /\ x mod 10 < y mod 10) by zdiv.
    destruct C as [C|[-> C]]; [apply str_lt_here; lia|apply str_lt_cons, str_lt_here; lia]. }
  destruct L as [[L|[-> [L|[-> L]]]]|[(-> & -> & ->) [L|[-> [L|[-> L]]]]]].
  - assert (C : dt_y u / 1000 < dt_y v / 1000 \/ dt_y u / 1000 = dt_y v / 1000 /\ (dt_y u / 100 mod 10 < dt_y v / 100 mod 10 \/
       dt_y u / 100 mod 10 = dt_y v / 100 mod 10 /\ (dt_y u / 10 mod 10 < dt_y v / 10 mod 10 \/ dt_y u / 10 mod 10 = dt_y v / 10 mod 10 /\ dt_y u mod 10 < dt_y v mod 10)))
      by (clear -L Y Y'; zdiv).
    destruct C as [C|[-> [C|[-> [C|[-> C]]]]]]; [|apply str_lt_cons|do 2 apply str_lt_cons|do 3 apply str_lt_cons]; apply str_lt_here; lia.
  - do 4 apply str_lt_cons. apply P2; lia.
  - do 6 apply str_lt_cons. apply P2; lia.
  - do 9 apply str_lt_cons. apply P2; lia.
  - do 11 apply str_lt_cons. apply P2; lia.
  - do 13 apply str_lt_cons. apply P2; lia.
Qed.

(** Before year 1000 the year is written without leading zeros, and the string does not
    read back: toIsoString(-3.1e13 ms) is "9870825T165320" (14 characters). *)
Theorem C40_round_trip_refuted : exists s str, dt_fromSeconds s <> Err OverflowError /\
  toIsoString (s * 1000) = Ok str /\ fromIsoString str = Err RuntimeError.
Proof.
  exists (-31000000000), (dt_iso (Dt 987 8 25 16 53 20)). vm_compute. split; [discriminate|]. split; reflexivity.
Qed.

(** ** Concrete cases *)
(** "20150825T080000" *)
Definition iso_ex : list Z := [50;48;49;53;48;56;50;53;84;48;56;48;48;48;48].
Example C40_ex1 : toIsoString 1440489600000 = Ok iso_ex /\ fromIsoString iso_ex = Ok 1440489600000
  /\ year_1000 <= 1440489600 < year_10000.
Proof. unfold year_1000, year_10000. vm_compute. intuition discriminate. Qed.
(** 29 February of a leap year *)
Example C40_ex2 : toIsoString (951782400 * 1000) = Ok [50;48;48;48;48;50;50;57;84;48;48;48;48;48;48].
Proof. reflexivity. Qed.
(** the bounds are the years 1000 and 10000 *)
Example C40_ex3 : dt_fromSeconds year_1000 = Ok (Dt 1000 1 1 0 0 0) /\ dt_fromSeconds (year_10000 - 1) = Ok (Dt 9999 12 31 23 59 59).
Proof. vm_compute. auto. Qed.
Example C40_ex4 : day_after (ord2ymd 719162) (1970, 1, 1) /\ ord2ymd 719162 = (1969, 12, 31).
Proof. split; [|reflexivity]. rewrite <- C40_epoch. unfold EPOCH_ORD. exact (C40_calendar 719162). Qed.

Print Assumptions C40_calendar.
Print Assumptions C40_iso_text.
Print Assumptions C40_round_trip.
Print Assumptions C40_rounding.
Print Assumptions C40_fromIso.
Print Assumptions C40_order.
Print Assumptions C40_round_trip_refuted.
