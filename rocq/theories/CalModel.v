(** * Model of the ISO time strings.

    python/pyndn/encoding/tlv_0_2_wire_format.py (toIsoString, fromIsoString),
    python/pyndn/encrypt/schedule.py (the same two functions),
    python/pyndn/util/common.py (datetimeFromTimestamp).

    Times are integers: milliseconds since 1970 (Python: float milliseconds;
    every integer in the datetime range is an exact float). *)
From Verif Require Import Base UriModel.
Local Open Scope res_scope.

(** ** Python's proleptic Gregorian calendar (the datetime library, date.toordinal
    and date.fromordinal as in CPython Lib/datetime.py) *)
Definition is_leap (y : Z) : bool := (y mod 4 =? 0) && (negb (y mod 100 =? 0) || (y mod 400 =? 0)).
Definition days_before_year (year : Z) : Z :=
  let y := year - 1 in y * 365 + y / 4 - y / 100 + y / 400.
Definition dbm_table (m : Z) : Z :=
  nth (Z.to_nat m) [-1; 0; 31; 59; 90; 120; 151; 181; 212; 243; 273; 304; 334] (-1).
Definition dim_table (m : Z) : Z :=
  nth (Z.to_nat m) [-1; 31; 28; 31; 30; 31; 30; 31; 31; 30; 31; 30; 31] (-1).
Definition days_before_month (leap : bool) (m : Z) : Z := dbm_table m + (if (2 <? m) && leap then 1 else 0).
Definition days_in_month (leap : bool) (m : Z) : Z := if (m =? 2) && leap then 29 else dim_table m.
Definition ymd2ord (y m d : Z) : Z := days_before_year y + days_before_month (is_leap y) m + d.
Definition ord2ymd (n : Z) : Z * Z * Z :=
  let n := n - 1 in
  let n400 := n / 146097 in let n := n mod 146097 in
  let n100 := n / 36524 in let n := n mod 36524 in
  let n4 := n / 1461 in let n := n mod 1461 in
  let n1 := n / 365 in let n := n mod 365 in
  let year := n400 * 400 + 1 + n100 * 100 + n4 * 4 + n1 in
  if (n1 =? 4) || (n100 =? 4) then (year - 1, 12, 31)
  else
    let leap := (n1 =? 3) && (negb (n4 =? 24) || (n100 =? 3)) in
    let month := Z.shiftr (n + 50) 5 in
    let preceding := days_before_month leap month in
    if n <? preceding then
      let month := month - 1 in
      (year, month, n - (preceding - days_in_month leap month) + 1)
    else (year, month, n - preceding + 1).

(** A naive UTC datetime with zero microseconds. *)
Record dt : Type := Dt { dt_y : Z; dt_m : Z; dt_d : Z; dt_H : Z; dt_M : Z; dt_S : Z }.

(** [datetime(y, m, d, H, M, S)]: the constructor's range checks *)
Definition dt_new (y m d H M S : Z) : res dt :=
  if negb ((1 <=? y) && (y <=? 9999)) then Err ValueError
  else if negb ((1 <=? m) && (m <=? 12)) then Err ValueError
  else if negb ((1 <=? d) && (d <=? days_in_month (is_leap y) m)) then Err ValueError
  else if negb ((0 <=? H) && (H <=? 23)) then Err ValueError
  else if negb ((0 <=? M) && (M <=? 59)) then Err ValueError
  else if negb ((0 <=? S) && (S <=? 59)) then Err ValueError
  else Ok (Dt y m d H M S).

(** ordinal of 1970-01-01 *)
Definition EPOCH_ORD : Z := 719163.

(** [(utc - posixEpoch).total_seconds()] *)
Definition dt_seconds (t : dt) : Z :=
  (ymd2ord (dt_y t) (dt_m t) (dt_d t) - EPOCH_ORD) * 86400 + dt_H t * 3600 + dt_M t * 60 + dt_S t.

(** util/common.py 73-87: datetimeFromTimestamp for a whole number of seconds:
    [utcfromtimestamp(0) + timedelta(seconds)]; OverflowError outside years 1..9999. *)
Definition dt_fromSeconds (s : Z) : res dt :=
  let '(y, m, d) := ord2ymd (s / 86400 + EPOCH_ORD) in
  let r := s mod 86400 in
  if (1 <=? s / 86400 + EPOCH_ORD) && (y <=? 9999)
  then Ok (Dt y m d (r / 3600) (r mod 3600 / 60) (r mod 60))
  else Err OverflowError.

(** [round(x / 1000.0)] (Python 3: ties to even) *)
Definition round1000 (x : Z) : Z :=
  let q := x / 1000 in let r := x mod 1000 in
  if r <? 500 then q else if 500 <? r then q + 1 else if Z.even q then q else q + 1.

(** [strftime("%Y%m%dT%H%M%S")]: %m etc. have two digits, %Y is not padded (glibc). *)
Definition two (n : Z) : list Z := [48 + n / 10; 48 + n mod 10].
Definition dt_iso (t : dt) : list Z :=
  str_int (dt_y t) ++ two (dt_m t) ++ two (dt_d t) ++ [84] ++ two (dt_H t) ++ two (dt_M t) ++ two (dt_S t).

(** tlv_0_2_wire_format.py 1589-1601, schedule.py 316-328: toIsoString *)
Definition toIsoString (ms : Z) : res (list Z) :=
  t <-- dt_fromSeconds (round1000 ms) ;; Ok (dt_iso t).

Definition int_or (s : list Z) : res Z := match int10 s with Some v => Ok v | None => Err ValueError end.

(** tlv_0_2_wire_format.py 1603-1624, schedule.py 330-350: fromIsoString *)
Definition fromIsoString (s : list Z) : res Z :=
  if negb (zlen s =? 15) || negb (zlist_eqb (zslice s 8 9) [84]) then Err RuntimeError
  else
    y <-- int_or (zslice s 0 4) ;; m <-- int_or (zslice s 4 6) ;; d <-- int_or (zslice s 6 8) ;;
    H <-- int_or (zslice s 9 11) ;; M <-- int_or (zslice s 11 13) ;; S <-- int_or (zslice s 13 15) ;;
    t <-- dt_new y m d H M S ;;
    Ok (dt_seconds t * 1000).
