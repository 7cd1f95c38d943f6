(** * Model of the access schedule.

    python/pyndn/encrypt/interval.py, python/pyndn/encrypt/repetitive_interval.py,
    python/pyndn/encrypt/schedule.py.

    Numbers.  The interval arithmetic only compares bounds and copies them, so the bounds
    are integers (milliseconds).  A time point given to [getInterval] or
    [getCoveringInterval] may have a fraction of a millisecond; it is modelled as an
    integer number of microseconds [us] (the resolution of Python's clock), so that the
    rounding in [_toDateOnlyMilliseconds] is modelled.  All the numbers in the range of
    Python's datetime are exact floats, and so are their sums used here.  NaN and infinite
    arguments are not modelled; the hours and the repeat count are integers. *)
From Verif Require Import Base TlvModel UriModel CalModel BlobModel WireModel.
Local Open Scope res_scope.

(** ** interval.py *)
Record iv : Type := Iv { iv_start : Z; iv_end : Z; iv_valid : bool }.

(** [-sys.float_info.max] *)
Definition NEG_MAX : Z := - ((2 ^ 53 - 1) * 2 ^ 971).

(** interval.py 60-65: Interval() and Interval(True) *)
Definition iv_default (isValid : bool) : iv := Iv NEG_MAX NEG_MAX isValid.

(** interval.py 50-59: Interval(startTime, endTime) *)
Definition iv_new (startTime endTime : Z) : res iv :=
  if negb (startTime <? endTime) then Err RuntimeError else Ok (Iv startTime endTime true).

(** interval.py 207-218: isEmpty *)
Definition iv_isEmpty (i : iv) : res bool :=
  if negb (iv_valid i) then Err RuntimeError else Ok (iv_start i =? iv_end i).

(** interval.py 77-93: covers.  The time point is in the unit of the bounds. *)
Definition iv_covers (i : iv) (timePoint : Z) : res bool :=
  if negb (iv_valid i) then Err RuntimeError
  else e <-- iv_isEmpty i ;;
    if e : bool then Ok false else Ok ((iv_start i <=? timePoint) && (timePoint <? iv_end i)).

(** interval.py 95-129: intersectWith (the interval is updated in place: the new value) *)
Definition iv_intersectWith (i other : iv) : res iv :=
  if negb (iv_valid i) then Err RuntimeError
  else if negb (iv_valid other) then Err RuntimeError
  else
    e1 <-- iv_isEmpty i ;; e2 <-- iv_isEmpty other ;;
    if (e1 : bool) || e2 then Ok (Iv (iv_end i) (iv_end i) (iv_valid i))
    else if (iv_end other <=? iv_start i) || (iv_end i <=? iv_start other) then Ok (Iv (iv_end i) (iv_end i) (iv_valid i))
    else
      let s := if iv_start i <=? iv_start other then iv_start other else iv_start i in
      let e := if iv_end other <? iv_end i then iv_end other else iv_end i in
      Ok (Iv s e (iv_valid i)).

(** interval.py 131-172: unionWith *)
Definition iv_unionWith (i other : iv) : res iv :=
  if negb (iv_valid i) then Err RuntimeError
  else if negb (iv_valid other) then Err RuntimeError
  else
    e1 <-- iv_isEmpty i ;;
    if e1 : bool then Ok (Iv (iv_start other) (iv_end other) (iv_valid i))
    else
      e2 <-- iv_isEmpty other ;;
      if e2 : bool then Ok i
      else if (iv_end other <=? iv_start i) || (iv_end i <=? iv_start other) then Err RuntimeError
      else
        let s := if iv_start other <? iv_start i then iv_start other else iv_start i in
        let e := if iv_end i <? iv_end other then iv_end other else iv_end i in
        Ok (Iv s e (iv_valid i)).

(** interval.py 174-196: getStartTime, getEndTime *)
Definition iv_getStartTime (i : iv) : res Z := if negb (iv_valid i) then Err RuntimeError else Ok (iv_start i).
Definition iv_getEndTime (i : iv) : res Z := if negb (iv_valid i) then Err RuntimeError else Ok (iv_end i).

(** ** repetitive_interval.py *)
Definition HOUR : Z := 3600 * 1000.
Definition DAY : Z := 24 * 3600 * 1000.
(** repetitive_interval.py 103-107 *)
Definition UNIT_NONE : Z := 0.
Definition UNIT_DAY : Z := 1.
Definition UNIT_MONTH : Z := 2.
Definition UNIT_YEAR : Z := 3.

Record ri : Type := Ri { ri_startDate : Z; ri_endDate : Z; ri_startHour : Z; ri_endHour : Z; ri_n : Z; ri_unit : Z }.

(** repetitive_interval.py 294-307: _toDateOnlyMilliseconds of a time in microseconds *)
Definition dateOnly (us : Z) : Z := let result := round1000 us in result - result mod DAY.

(** repetitive_interval.py 64-93: the constructor.  The dates are given in milliseconds. *)
Definition ri_new (startDate endDate startHour endHour : Z) (nRepeats repeatUnit : option Z) : res ri :=
  let n := match nRepeats with None => 0 | Some n => n end in
  let u := match repeatUnit with None => UNIT_NONE | Some u => u end in
  let sd := dateOnly (1000 * startDate) in
  let ed := dateOnly (1000 * endDate) in
  if negb (startHour <? endHour) then Err RuntimeError
  else if negb (sd <=? ed) then Err RuntimeError
  else if negb (0 <=? startHour) then Err RuntimeError
  else if negb ((1 <=? endHour) && (endHour <=? 24)) then Err RuntimeError
  else if (u =? UNIT_NONE) && negb (sd =? ed) then Err RuntimeError
  else Ok (Ri sd ed startHour endHour n u).

(** repetitive_interval.py 94-101: the default constructor *)
Definition ri_default : ri := Ri NEG_MAX NEG_MAX 0 24 0 UNIT_NONE.

(** [x % n == 0] for a Python int or float [x] *)
Definition divides0 (x n : Z) : res bool := if n =? 0 then Err ZeroDivisionError else Ok (x mod n =? 0).

(** repetitive_interval.py 251-292: _hasIntervalOnDate *)
Definition hasIntervalOnDate (r : ri) (us : Z) : res bool :=
  let d := dateOnly us in
  if (d <? ri_startDate r) || (ri_endDate r <? d) then Ok false
  else if ri_unit r =? UNIT_NONE then Ok true
  else if ri_unit r =? UNIT_DAY then divides0 ((d - ri_startDate r) / DAY) (ri_n r)
  else
    t <-- dt_fromSeconds (round1000 d) ;;
    s <-- dt_fromSeconds (ri_startDate r / 1000) ;;
    if (ri_unit r =? UNIT_MONTH) && (dt_d t =? dt_d s) then
      divides0 (12 * (dt_y t - dt_y s) + dt_m t - dt_m s) (ri_n r)
    else if (ri_unit r =? UNIT_YEAR) && (dt_d t =? dt_d s) && (dt_m t =? dt_m s) then
      divides0 (dt_y t - dt_y s) (ri_n r)
    else Ok false.

(** repetitive_interval.py 114-154: getInterval: isPositive and the interval.  The
    comparisons of the time point with a bound in milliseconds are in microseconds. *)
Definition ri_getInterval (r : ri) (us : Z) : res (bool * iv) :=
  h <-- hasIntervalOnDate r us ;;
  if negb (h : bool) then
    i <-- iv_new (dateOnly us) (dateOnly us + 24 * HOUR) ;; Ok (false, i)
  else
    let startTime := dateOnly us + ri_startHour r * HOUR in
    let endTime := dateOnly us + ri_endHour r * HOUR in
    if us <? 1000 * startTime then i <-- iv_new (dateOnly us) startTime ;; Ok (false, i)
    else if 1000 * endTime <? us then i <-- iv_new endTime (dateOnly us + DAY) ;; Ok (false, i)
    else i <-- iv_new startTime endTime ;; Ok (true, i).

(** repetitive_interval.py 156-195: compare *)
Definition ri_compare (a b : ri) : Z :=
  if ri_startDate a <? ri_startDate b then -1 else if ri_startDate b <? ri_startDate a then 1
  else if ri_endDate a <? ri_endDate b then -1 else if ri_endDate b <? ri_endDate a then 1
  else if ri_startHour a <? ri_startHour b then -1 else if ri_startHour b <? ri_startHour a then 1
  else if ri_endHour a <? ri_endHour b then -1 else if ri_endHour b <? ri_endHour a then 1
  else if ri_n a <? ri_n b then -1 else if ri_n b <? ri_n a then 1
  else if ri_unit a <? ri_unit b then -1 else if ri_unit b <? ri_unit a then 1
  else 0.

(** ** schedule.py *)
Record sched : Type := Sched { sc_white : list ri; sc_black : list ri }.
Definition sc_empty : sched := Sched [] [].

(** schedule.py 213-231: _sortedSetAdd *)
Fixpoint sortedSetAdd (l : list ri) (e : ri) : list ri :=
  match l with
  | [] => [e]
  | x :: l' =>
      if ri_compare x e =? 0 then l
      else if negb (ri_compare x e <? 0) then e :: l
      else x :: sortedSetAdd l' e
  end.

(** schedule.py 56-82: addWhiteInterval, addBlackInterval *)
Definition sc_addWhite (s : sched) (e : ri) : sched := Sched (sortedSetAdd (sc_white s) e) (sc_black s).
Definition sc_addBlack (s : sched) (e : ri) : sched := Sched (sc_white s) (sortedSetAdd (sc_black s) e).

(** schedule.py 290-314: _calculateIntervalResult *)
Fixpoint calculateIntervalResult (l : list ri) (us : Z) (pos neg : iv) : res (iv * iv) :=
  match l with
  | [] => Ok (pos, neg)
  | e :: l' =>
      r <-- ri_getInterval e us ;;
      let '(isPositive, temp) := r in
      if (isPositive : bool) then
        pos' <-- iv_unionWith pos temp ;; calculateIntervalResult l' us pos' neg
      else if negb (iv_valid neg) then calculateIntervalResult l' us pos temp
      else neg' <-- iv_intersectWith neg temp ;; calculateIntervalResult l' us pos neg'
  end.

(** schedule.py 89-144: getCoveringInterval *)
Definition sc_getCoveringInterval (s : sched) (us : Z) : res (bool * iv) :=
  b <-- calculateIntervalResult (sc_black s) us (iv_default true) (iv_default false) ;;
  let '(blackPos, blackNeg) := b in
  be <-- iv_isEmpty blackPos ;;
  if negb (be : bool) then Ok (false, blackPos)
  else
    w <-- calculateIntervalResult (sc_white s) us (iv_default true) (iv_default false) ;;
    let '(whitePos, whiteNeg) := w in
    we <-- iv_isEmpty whitePos ;;
    if (we : bool) && negb (iv_valid whiteNeg) then
      i <-- iv_new (dateOnly us) (dateOnly us + DAY) ;; Ok (false, i)
    else if negb we then
      if iv_valid blackNeg then i <-- iv_intersectWith whitePos blackNeg ;; Ok (true, i)
      else Ok (true, whitePos)
    else Ok (false, whiteNeg).

(** ** The wire form of a schedule *)

(** schedule.py 233-261: _encodeRepetitiveInterval (the encoder writes backwards) *)
Definition enc_ri (r : ri) (out : bytes) : res bytes :=
  let saveLength := zlen out in
  out <-- e_writeNonNegativeIntegerTlv 139 (ri_unit r) out ;;
  out <-- e_writeNonNegativeIntegerTlv 138 (ri_n r) out ;;
  out <-- e_writeNonNegativeIntegerTlv 137 (ri_endHour r) out ;;
  out <-- e_writeNonNegativeIntegerTlv 136 (ri_startHour r) out ;;
  endStr <-- toIsoString (ri_endDate r) ;;
  endBlob <-- blob_of_str endStr ;;
  let out := e_writeBlobTlv 135 endBlob out in
  startStr <-- toIsoString (ri_startDate r) ;;
  startBlob <-- blob_of_str startStr ;;
  let out := e_writeBlobTlv 134 startBlob out in
  Ok (e_writeTypeAndLength 140 (zlen out - saveLength) out).

(** schedule.py 158-171: a list, from the last entry to the first *)
Fixpoint enc_ris (l : list ri) (out : bytes) : res bytes :=
  match l with
  | [] => Ok out
  | r :: l' => out <-- enc_ris l' out ;; enc_ri r out
  end.

(** schedule.py 146-176: wireEncode *)
Definition sc_wireEncode (s : sched) : res bytes :=
  b <-- enc_ris (sc_black s) [] ;;
  let out := e_writeTypeAndLength 142 (zlen b) b in
  let save := zlen out in
  out <-- enc_ris (sc_white s) out ;;
  let out := e_writeTypeAndLength 141 (zlen out - save) out in
  Ok (e_writeTypeAndLength 143 (zlen out) out).

Local Open Scope dec_scope.

(** schedule.py 263-288: _decodeRepetitiveInterval *)
Definition dec_ri : dec ri :=
  endOffset <~ d_readNestedTlvsStart 140 ;;
  b1 <~ d_readBlobTlv 134 ;;
  s1 <~ dlift (blob_to_str (Some b1)) ;;
  startDate <~ dlift (fromIsoString s1) ;;
  b2 <~ d_readBlobTlv 135 ;;
  s2 <~ dlift (blob_to_str (Some b2)) ;;
  endDate <~ dlift (fromIsoString s2) ;;
  startHour <~ d_readNonNegativeIntegerTlv 136 ;;
  endHour <~ d_readNonNegativeIntegerTlv 137 ;;
  nRepeats <~ d_readNonNegativeIntegerTlv 138 ;;
  repeatUnit <~ d_readNonNegativeIntegerTlv 139 ;;
  d_finishNestedTlvs endOffset false ;;;
  dlift (ri_new startDate endDate startHour endHour (Some nRepeats) (Some repeatUnit)).

(** schedule.py 198-200, 206-208: the loop over a list, bounded by the input length (each
    entry takes at least two bytes) *)
Fixpoint dec_ris (fuel : nat) (endOffset : Z) (acc : list ri) : dec (list ri) :=
  off <~ d_getOffset ;;
  if off <? endOffset then
    match fuel with
    | O => derr OutOfFuel
    | S fuel' => r <~ dec_ri ;; dec_ris fuel' endOffset (sortedSetAdd acc r)
    end
  else dret acc.

(** schedule.py 178-211: wireDecode *)
Definition dec_schedule : dec sched :=
  endOffset <~ d_readNestedTlvsStart 143 ;;
   listEnd <~ d_readNestedTlvsStart 141 ;;
   white <~ dfuel (fun fuel => dec_ris fuel listEnd []) ;;
   d_finishNestedTlvs listEnd false ;;;
   listEnd <~ d_readNestedTlvsStart 142 ;;
   black <~ dfuel (fun fuel => dec_ris fuel listEnd []) ;;
   d_finishNestedTlvs listEnd false ;;;
   d_finishNestedTlvs endOffset false ;;;
   dret (Sched white black).
Definition sc_wireDecode (inp : bytes) : res sched :=
  match dec_schedule inp 0 with Ok (s, _) => Ok s | Err e => Err e end.
