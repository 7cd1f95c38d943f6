(** * Lemmas about the calendar and ISO strings. *)
From Verif Require Import Base BaseLemmas UriModel UriProofs CalModel.
From Coq Require Import ZifyBool.
Local Open Scope res_scope.

Definition date_ok (y m d : Z) : Prop := 1 <= m <= 12 /\ 1 <= d <= days_in_month (is_leap y) m.

(** ** Month part: a finite check over a year *)
Definition month_of (leap : bool) (n : Z) : Z * Z :=
  let month := Z.shiftr (n + 50) 5 in
  let preceding := days_before_month leap month in
  if n <? preceding then
    let month := month - 1 in (month, n - (preceding - days_in_month leap month) + 1)
  else (month, n - preceding + 1).
Definition month_check (leap : bool) (n : Z) : bool :=
  let '(m, d) := month_of leap n in
  (1 <=? m) && (m <=? 12) && (1 <=? d) && (d <=? days_in_month leap m) && (days_before_month leap m + d =? n + 1).
Definition year_len (leap : bool) : Z := if leap then 366 else 365.

Lemma month_check_ok : forall (leap : bool) n, 0 <= n < 365 + (if leap then 1 else 0) -> month_check leap n = true.
Proof.
  assert (K : forall leap : bool, forallb (fun k => month_check leap (Z.of_nat k)) (seq 0 (if leap : bool then 366 else 365)) = true).
  { intros [|]; vm_compute; reflexivity. }
  intros leap n H. specialize (K leap). rewrite forallb_forall in K. specialize (K (Z.to_nat n)).
  rewrite Z2Nat.id in K by lia. apply K. apply in_seq. destruct leap; lia.
Qed.

Lemma is_leap_iff : forall y, is_leap y = true <-> (y mod 4 = 0 /\ (y mod 100 <> 0 \/ y mod 400 = 0)).
Proof. intros. unfold is_leap. lia. Qed.

Lemma ord2ymd_ok : forall n y m d, ord2ymd n = (y, m, d) -> ymd2ord y m d = n /\ date_ok y m d.
Proof.
  intros n y m d. unfold ord2ymd.
  set (N := n - 1).
  set (n400 := N / 146097). set (r0 := N mod 146097).
  set (n100 := r0 / 36524). set (r1 := r0 mod 36524).
  set (n4 := r1 / 1461). set (r2 := r1 mod 1461).
  set (n1 := r2 / 365). set (r := r2 mod 365).
  set (year := n400 * 400 + 1 + n100 * 100 + n4 * 4 + n1).
  assert (A0 : N = 146097 * n400 + r0 /\ 0 <= r0 < 146097) by (unfold n400, r0; zdiv).
  assert (A1 : r0 = 36524 * n100 + r1 /\ 0 <= r1 < 36524) by (unfold n100, r1; zdiv).
  assert (A2 : r1 = 1461 * n4 + r2 /\ 0 <= r2 < 1461) by (unfold n4, r2; zdiv).
  assert (A3 : r2 = 365 * n1 + r /\ 0 <= r < 365) by (unfold n1, r; zdiv).
  assert (B : 0 <= n100 <= 4 /\ 0 <= n4 <= 24 /\ 0 <= n1 <= 4) by lia.
  clearbody n400 r0 n100 r1 n4 r2 n1 r.
  destruct ((n1 =? 4) || (n100 =? 4)) eqn:E.
  - intros H. inversion H; subst y m d; clear H. split.
    + unfold ymd2ord. assert (L : is_leap (year - 1) = true).
      { apply is_leap_iff. unfold year. destruct (n100 =? 4) eqn:E4.
        - assert (n4 = 0 /\ n1 = 0) by lia. zdiv.
        - assert (n1 = 4) by lia. assert (r = 0) by lia.
          assert (n4 <> 24) by lia. zdiv. }
      rewrite L. replace (days_before_month true 12) with 335 by reflexivity.
      unfold days_before_year. unfold year. zdiv.
    + split; [lia|]. replace (days_in_month (is_leap (year - 1)) 12) with 31 by (unfold days_in_month; reflexivity). lia.
  - assert (Hl : is_leap year = (n1 =? 3) && (negb (n4 =? 24) || (n100 =? 3))).
    { apply eq_true_iff_eq. rewrite is_leap_iff. unfold year. zdiv. }
    rewrite <- Hl. intros H.
    pose proof (month_check_ok (is_leap year) r ltac:(destruct (is_leap year); lia)) as MC.
    unfold month_check in MC.
    assert (Hm : month_of (is_leap year) r = (m, d) /\ y = year).
    { unfold month_of. cbn zeta in *. destruct (r <? days_before_month (is_leap year) (Z.shiftr (r + 50) 5)); inversion H; auto. }
    destruct Hm as [Hm ->]. rewrite Hm in MC. split; [|split; lia].
    unfold ymd2ord. assert (D : days_before_year year = N - r).
    { unfold days_before_year, year. zdiv. }
    lia.
Qed.

(** ** Monotonicity of the ordinal *)
Lemma dbm_step : forall (leap : bool) m, 1 <= m <= 12 -> days_before_month leap m + days_in_month leap m <= 365 + (if leap then 1 else 0) /\
  0 <= days_before_month leap m.
Proof.
  assert (K : forall leap : bool, forallb (fun k => let m := Z.of_nat k in (days_before_month leap m + days_in_month leap m <=? 365 + (if leap : bool then 1 else 0)) && (0 <=? days_before_month leap m)) (seq 1 12) = true).
  { intros [|]; reflexivity. }
  intros leap m H. specialize (K leap). rewrite forallb_forall in K. specialize (K (Z.to_nat m)).
  rewrite Z2Nat.id in K by lia. assert (In (Z.to_nat m) (seq 1 12)) by (apply in_seq; lia). specialize (K H0). cbn zeta in K. lia.
Qed.
Lemma dbm_mono : forall (leap : bool) m m', 1 <= m < m' -> m' <= 12 -> days_before_month leap m + days_in_month leap m <= days_before_month leap m'.
Proof.
  assert (K : forall leap : bool, forallb (fun k => forallb (fun j => if Nat.ltb k j then
     days_before_month leap (Z.of_nat k) + days_in_month leap (Z.of_nat k) <=? days_before_month leap (Z.of_nat j) else true) (seq 1 12)) (seq 1 12) = true).
  { intros [|]; vm_compute; reflexivity. }
  intros leap m m' H H'. specialize (K leap). rewrite forallb_forall in K. specialize (K (Z.to_nat m)).
  assert (I1 : In (Z.to_nat m) (seq 1 12)) by (apply in_seq; lia). specialize (K I1). cbn beta in K.
  rewrite forallb_forall in K. assert (I2 : In (Z.to_nat m') (seq 1 12)) by (apply in_seq; lia). specialize (K _ I2). cbn beta in K.
  replace (Nat.ltb (Z.to_nat m) (Z.to_nat m')) with true in K by (symmetry; apply Nat.ltb_lt; lia).
  rewrite !Z2Nat.id in K by lia. lia.
Qed.
Lemma dby_step : forall y, days_before_year (y + 1) = days_before_year y + 365 + (if is_leap y then 1 else 0).
Proof.
  intros y. unfold days_before_year. replace (y + 1 - 1) with y by lia.
  pose proof (is_leap_iff y). destruct (is_leap y).
  - assert (y mod 4 = 0 /\ (y mod 100 <> 0 \/ y mod 400 = 0)) by tauto. zdiv.
  - assert (~ (y mod 4 = 0 /\ (y mod 100 <> 0 \/ y mod 400 = 0))) by (intros K; apply H in K; discriminate). zdiv.
Qed.
Lemma dby_mono : forall y y', y < y' -> days_before_year y + 365 + (if is_leap y then 1 else 0) <= days_before_year y'.
Proof.
  intros y y' H. rewrite <- dby_step. replace y' with (y + 1 + Z.of_nat (Z.to_nat (y' - y - 1))) by lia.
  generalize (Z.to_nat (y' - y - 1)). induction n; [rewrite Z.add_0_r; lia|].
  rewrite Nat2Z.inj_succ. replace (y + 1 + Z.succ (Z.of_nat n)) with (y + 1 + Z.of_nat n + 1) by lia.
  rewrite (dby_step (y + 1 + Z.of_nat n)). destruct (is_leap (y + 1 + Z.of_nat n)); lia.
Qed.

Definition ymd_lt (y m d y' m' d' : Z) : Prop := y < y' \/ y = y' /\ (m < m' \/ m = m' /\ d < d').
Lemma ymd2ord_mono : forall y m d y' m' d', date_ok y m d -> date_ok y' m' d' -> ymd_lt y m d y' m' d' ->
  ymd2ord y m d < ymd2ord y' m' d'.
Proof.
  intros y m d y' m' d' [H1 H2] [H1' H2'] L. unfold ymd2ord.
  pose proof (dbm_step (is_leap y) m H1) as [B1 B2]. pose proof (dbm_step (is_leap y') m' H1') as [B1' B2'].
  destruct L as [L|[-> [L|[-> L]]]].
  - pose proof (dby_mono y y' L). lia.
  - pose proof (dbm_mono (is_leap y') m m' ltac:(lia) ltac:(lia)). lia.
  - lia.
Qed.
Lemma ymd_tri : forall y m d y' m' d', ymd_lt y m d y' m' d' \/ (y = y' /\ m = m' /\ d = d') \/ ymd_lt y' m' d' y m d.
Proof. intros. unfold ymd_lt. lia. Qed.
Lemma ymd2ord_inj : forall y m d y' m' d', date_ok y m d -> date_ok y' m' d' -> ymd2ord y m d = ymd2ord y' m' d' ->
  y = y' /\ m = m' /\ d = d'.
Proof.
  intros y m d y' m' d' H H' E. destruct (ymd_tri y m d y' m' d') as [L|[L|L]]; [|exact L|];
  apply ymd2ord_mono in L; auto; lia.
Qed.

Lemma dim31 : forall l m, 1 <= m <= 12 -> 28 <= days_in_month l m <= 31.
Proof.
  intros l m H. assert (K : forall k, (1 <= k <= 12)%nat -> 28 <= days_in_month l (Z.of_nat k) <= 31).
  { intros k Hk. assert (I : In k (seq 1 12)) by (apply in_seq; lia). cbn in I. decompose [or] I; subst; try tauto; destruct l; vm_compute; split; discriminate. }
  specialize (K (Z.to_nat m)). rewrite Z2Nat.id in K by lia. apply K. lia.
Qed.

(** Year range <-> ordinal range *)
Lemma ord_range : forall n y m d, ord2ymd n = (y, m, d) ->
  (1 <= n <-> 1 <= y) /\ (n <= 3652059 <-> y <= 9999) /\ (364878 <= n <-> 1000 <= y).
Proof.
  intros n y m d H. apply ord2ymd_ok in H. destruct H as [E O].
  assert (M1 : date_ok 1 1 1) by (split; [lia|vm_compute; split; discriminate]).
  assert (M2 : date_ok 9999 12 31) by (split; [lia|vm_compute; split; discriminate]).
  assert (M3 : date_ok 1000 1 1) by (split; [lia|vm_compute; split; discriminate]).
  assert (V1 : ymd2ord 1 1 1 = 1) by reflexivity. assert (V2 : ymd2ord 9999 12 31 = 3652059) by reflexivity.
  assert (V3 : ymd2ord 1000 1 1 = 364878) by reflexivity.
  assert (D : 1 <= d <= 31 /\ 1 <= m <= 12).
  { destruct O as [O1 O2]. pose proof (dim31 (is_leap y) m O1). lia. }
  pose proof (ymd_tri y m d 1 1 1) as T1. pose proof (ymd_tri y m d 9999 12 31) as T2. pose proof (ymd_tri y m d 1000 1 1) as T3.
  repeat match goal with
  | T : ymd_lt ?a ?b ?c ?x ?y ?z \/ _ |- _ => destruct T as [T|[T|T]]
  end;
  repeat match goal with
  | T : ymd_lt _ _ _ _ _ _ |- _ => let K := fresh "K" in pose proof T as K; apply ymd2ord_mono in K; [|assumption|assumption]; revert K; unfold ymd_lt in T
  end; intros;
  repeat match goal with T : _ = _ /\ _ = _ /\ _ = _ |- _ => destruct T as (? & ? & ?); subst end; lia.
Qed.

(** ** Digits *)
Lemma two_digit_int : forall n, 0 <= n < 100 -> int10 (two n) = Some n.
Proof.
  intros n H.
  assert (K : forallb (fun k => match int10 (two (Z.of_nat k)) with Some v => v =? Z.of_nat k | None => false end) (seq 0 100) = true) by (vm_compute; reflexivity).
  rewrite forallb_forall in K. specialize (K (Z.to_nat n)). rewrite Z2Nat.id in K by lia.
  assert (In (Z.to_nat n) (seq 0 100)) by (apply in_seq; lia). specialize (K H0).
  destruct (int10 (two n)); [|discriminate]. f_equal. lia.
Qed.
Lemma year_digits : forall y, 1000 <= y <= 9999 -> str_int y = [48 + y / 1000; 48 + y / 100 mod 10; 48 + y / 10 mod 10; 48 + y mod 10].
Proof.
  intros y H. unfold str_int. replace (y <? 0) with false by lia.
  assert (L : 9 <= Z.log2 y) by (apply Z.log2_le_pow2; lia).
  replace (S (Z.to_nat (Z.log2 y))) with (S (S (S (S (Z.to_nat (Z.log2 y - 3)))))) by lia.
  generalize (Z.to_nat (Z.log2 y - 3)). intros k. cbn [dec_digits].
  replace (y <? 10) with false by lia. replace (y / 10 <? 10) with false by zdiv.
  replace (y / 10 / 10 <? 10) with false by zdiv. replace (y / 10 / 10 / 10 <? 10) with true by zdiv.
  replace (y / 10 / 10 / 10) with (y / 1000) by zdiv. replace (y / 10 / 10) with (y / 100) by zdiv. replace ((y / 1000) mod 10) with (y / 1000) by zdiv. reflexivity.
Qed.

(** ** Round trip *)
Definition iso_range (s : Z) : Prop := -30610224000 <= s < 253402300800.

Lemma fromSeconds_ok : forall s, iso_range s -> exists t, dt_fromSeconds s = Ok t /\
  1000 <= dt_y t <= 9999 /\ date_ok (dt_y t) (dt_m t) (dt_d t) /\
  0 <= dt_H t < 24 /\ 0 <= dt_M t < 60 /\ 0 <= dt_S t < 60 /\ dt_seconds t = s.
Proof.
  intros s H. unfold iso_range in H. unfold dt_fromSeconds, EPOCH_ORD.
  assert (A : 364878 <= s / 86400 + 719163 <= 3652059) by zdiv.
  destruct (ord2ymd (s / 86400 + 719163)) as [[y m] d] eqn:E.
  pose proof (ord_range _ _ _ _ E) as (R1 & R2 & R3). pose proof (ord2ymd_ok _ _ _ _ E) as [O1 O2].
  replace ((1 <=? s / 86400 + 719163) && (y <=? 9999)) with true by lia.
  eexists. split; [reflexivity|]. cbn [dt_y dt_m dt_d dt_H dt_M dt_S].
  split; [lia|]. split; [exact O2|]. split; [zdiv|]. split; [zdiv|]. split; [zdiv|].
  unfold dt_seconds, EPOCH_ORD. cbn [dt_y dt_m dt_d dt_H dt_M dt_S]. rewrite O1. zdiv.
Qed.

Lemma iso_fields : forall t, 1000 <= dt_y t <= 9999 ->
  dt_iso t = [48 + dt_y t / 1000; 48 + dt_y t / 100 mod 10; 48 + dt_y t / 10 mod 10; 48 + dt_y t mod 10;
    48 + dt_m t / 10; 48 + dt_m t mod 10; 48 + dt_d t / 10; 48 + dt_d t mod 10; 84;
    48 + dt_H t / 10; 48 + dt_H t mod 10; 48 + dt_M t / 10; 48 + dt_M t mod 10; 48 + dt_S t / 10; 48 + dt_S t mod 10].
Proof. intros. unfold dt_iso. rewrite year_digits by assumption. reflexivity. Qed.

Lemma fromIso_iso : forall t, 1000 <= dt_y t <= 9999 -> date_ok (dt_y t) (dt_m t) (dt_d t) ->
  0 <= dt_H t < 24 -> 0 <= dt_M t < 60 -> 0 <= dt_S t < 60 -> fromIsoString (dt_iso t) = Ok (dt_seconds t * 1000).
Proof.
  intros t Hy Ho HH HM HS. destruct Ho as [Ho1 Ho2]. pose proof (dim31 (is_leap (dt_y t)) (dt_m t) Ho1) as D31.
  rewrite iso_fields by assumption. unfold fromIsoString.
  change (zlen [_;_;_;_;_;_;_;_;_;_;_;_;_;_;_]) with 15.
  unfold zslice at 1. change (zlen [_;_;_;_;_;_;_;_;_;_;_;_;_;_;_]) with 15. cbn [Z.min Z.compare Z.sub Z.add Z.opp Pos.compare Pos.compare_cont Z.pos_sub Z.to_nat Pos.to_nat Pos.iter_op Nat.add skipn firstn Pos.pred_double].
  cbn [zlist_eqb Z.eqb Pos.eqb negb orb andb].
  assert (Sl : forall a b, zslice [48 + dt_y t / 1000; 48 + dt_y t / 100 mod 10; 48 + dt_y t / 10 mod 10; 48 + dt_y t mod 10;
    48 + dt_m t / 10; 48 + dt_m t mod 10; 48 + dt_d t / 10; 48 + dt_d t mod 10; 84;
    48 + dt_H t / 10; 48 + dt_H t mod 10; 48 + dt_M t / 10; 48 + dt_M t mod 10; 48 + dt_S t / 10; 48 + dt_S t mod 10] a b =
    firstn (Z.to_nat (Z.min b 15 - a)) (skipn (Z.to_nat (Z.min a 15)) [48 + dt_y t / 1000; 48 + dt_y t / 100 mod 10; 48 + dt_y t / 10 mod 10; 48 + dt_y t mod 10;
    48 + dt_m t / 10; 48 + dt_m t mod 10; 48 + dt_d t / 10; 48 + dt_d t mod 10; 84;
    48 + dt_H t / 10; 48 + dt_H t mod 10; 48 + dt_M t / 10; 48 + dt_M t mod 10; 48 + dt_S t / 10; 48 + dt_S t mod 10])) by reflexivity.
  rewrite !Sl. clear Sl.
  repeat match goal with |- context [Z.to_nat ?e] => let v := eval cbv in (Z.to_nat e) in change (Z.to_nat e) with v end.
  cbn [skipn firstn].
  change [48 + dt_m t / 10; 48 + dt_m t mod 10] with (two (dt_m t)).
  change [48 + dt_d t / 10; 48 + dt_d t mod 10] with (two (dt_d t)).
  change [48 + dt_H t / 10; 48 + dt_H t mod 10] with (two (dt_H t)).
  change [48 + dt_M t / 10; 48 + dt_M t mod 10] with (two (dt_M t)).
  change [48 + dt_S t / 10; 48 + dt_S t mod 10] with (two (dt_S t)).
  rewrite <- year_digits by assumption.
  unfold int_or. rewrite int10_str by lia. rewrite !two_digit_int by lia. cbn [rbind].
  unfold dt_new.
  replace ((1 <=? dt_y t) && (dt_y t <=? 9999)) with true by lia. replace ((1 <=? dt_m t) && (dt_m t <=? 12)) with true by lia.
  replace ((1 <=? dt_d t) && (dt_d t <=? days_in_month (is_leap (dt_y t)) (dt_m t))) with true by lia.
  replace ((0 <=? dt_H t) && (dt_H t <=? 23)) with true by lia. replace ((0 <=? dt_M t) && (dt_M t <=? 59)) with true by lia.
  replace ((0 <=? dt_S t) && (dt_S t <=? 59)) with true by lia. cbn [negb rbind]. destruct t. reflexivity.
Qed.

Lemma round1000_exact : forall s, round1000 (s * 1000) = s.
Proof. intros. unfold round1000. rewrite Z.div_mul, Z.mod_mul by lia. reflexivity. Qed.

Lemma iso_round_trip : forall s, iso_range s -> exists str, toIsoString (s * 1000) = Ok str /\ fromIsoString str = Ok (s * 1000)
  /\ zlen str = 15 /\ bytes_ok str /\ Forall (fun c => c < 128) str.
Proof.
  intros s H. destruct (fromSeconds_ok s H) as (t & E & Y & O & HH & HM & HS & V).
  exists (dt_iso t). unfold toIsoString. rewrite round1000_exact, E. cbn [rbind]. split; [reflexivity|].
  split; [rewrite fromIso_iso, V by assumption; reflexivity|].
  rewrite iso_fields by assumption. split; [reflexivity|].
  destruct O as [O1 O2]. pose proof (dim31 (is_leap (dt_y t)) (dt_m t) O1).
  split; unfold bytes_ok; repeat (apply Forall_cons; [unfold is_byte; zdiv|]); apply Forall_nil.
Qed.
