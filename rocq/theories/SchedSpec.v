(** * Specification vocabulary for the access schedule: sets of time points. *)
From Verif Require Import Base CalModel SchedModel.

(** Membership of a time (in the unit of the bounds) in a half-open interval. *)
Definition inside (i : iv) (t : Z) : Prop := iv_start i <= t < iv_end i.
(** An Interval object made by the API: valid, and the start is not after the end. *)
Definition proper (i : iv) : Prop := iv_valid i = true /\ iv_start i <= iv_end i.

(** A time in microseconds in an interval whose bounds are in milliseconds. *)
Definition inside_us (i : iv) (us : Z) : Prop := 1000 * iv_start i <= us < 1000 * iv_end i.

Definition DAY_US : Z := 86400000000.
Definition HOUR_US : Z := 3600000000.

(** The calendar date of day number [D] (days since 1970-01-01); see property C40 *)
Definition date_of (D : Z) : Z * Z * Z := ord2ymd (EPOCH_ORD + D).

(** The interval repeats on day number [D] *)
Definition repeats_on (r : ri) (D : Z) : Prop :=
  let S := ri_startDate r / DAY in
  let '(y, m, d) := date_of D in
  let '(ys, ms, ds) := date_of S in
  S <= D <= ri_endDate r / DAY /\
  (ri_unit r = UNIT_NONE
   \/ ri_unit r = UNIT_DAY /\ (ri_n r | D - S)
   \/ ri_unit r = UNIT_MONTH /\ d = ds /\ (ri_n r | 12 * (y - ys) + (m - ms))
   \/ ri_unit r = UNIT_YEAR /\ d = ds /\ m = ms /\ (ri_n r | y - ys)).

(** The time (in microseconds) is in one of the daily intervals *)
Definition occurs (r : ri) (us : Z) : Prop :=
  exists D, repeats_on r D /\ D * DAY_US + ri_startHour r * HOUR_US <= us < D * DAY_US + ri_endHour r * HOUR_US.

(** A RepetitiveInterval made by the constructor *)
Definition made (r : ri) : Prop := exists sd ed sh eh n u, ri_new sd ed sh eh n u = Ok r.
(** The repeat count of a repeating interval is not zero, and the dates of an interval
    repeating by month or year are in the range of the datetime library (years 1 to 9999). *)
Definition usable (r : ri) : Prop :=
  made r /\
  (ri_unit r = UNIT_DAY \/ ri_unit r = UNIT_MONTH \/ ri_unit r = UNIT_YEAR -> ri_n r <> 0) /\
  (1 <= EPOCH_ORD + ri_startDate r / DAY /\ EPOCH_ORD + ri_endDate r / DAY <= 3652059).

(** Not in the last half millisecond of a day *)
Definition not_last_instant (us : Z) : Prop := us mod DAY_US < DAY_US - 500.
(** The time is the closing time of a daily interval of [r] (and not midnight) *)
Definition closing (r : ri) (us : Z) : Prop :=
  exists D, repeats_on r D /\ us = D * DAY_US + ri_endHour r * HOUR_US /\ ri_endHour r < 24.

Definition white (s : sched) (us : Z) : Prop := exists r, In r (sc_white s) /\ occurs r us.
Definition black (s : sched) (us : Z) : Prop := exists r, In r (sc_black s) /\ occurs r us.
(** Access is allowed: in some white interval and in no black one. *)
Definition allowed (s : sched) (us : Z) : Prop := white s us /\ ~ black s us.

(** Strict order of repetitive intervals: lexicographic in the six fields *)
Definition ri_lt (a b : ri) : Prop :=
  ri_startDate a < ri_startDate b \/ ri_startDate a = ri_startDate b /\
  (ri_endDate a < ri_endDate b \/ ri_endDate a = ri_endDate b /\
  (ri_startHour a < ri_startHour b \/ ri_startHour a = ri_startHour b /\
  (ri_endHour a < ri_endHour b \/ ri_endHour a = ri_endHour b /\
  (ri_n a < ri_n b \/ ri_n a = ri_n b /\ ri_unit a < ri_unit b)))).

(** The operations of a Schedule *)
Inductive sc_op : Type := AddWhite (r : ri) | AddBlack (r : ri).
Definition sc_step (s : sched) (o : sc_op) : sched :=
  match o with AddWhite r => sc_addWhite s r | AddBlack r => sc_addBlack s r end.
Definition sc_run (ops : list sc_op) : sched := fold_left sc_step ops sc_empty.
