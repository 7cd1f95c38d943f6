(** * Specification vocabulary for the calendar: the Gregorian calendar described
    by "the day after". *)
From Coq Require Import ZArith List.
Import ListNotations.
Local Open Scope Z_scope.

(** Leap years: every fourth year, not the centuries, except every fourth century. *)
Definition leap_year (y : Z) : Prop := (4 | y) /\ (~ (100 | y) \/ (400 | y)).

(** Thirty days hath September, April, June and November ... *)
Definition month_has (y m d : Z) : Prop :=
  1 <= d /\
  ((m = 4 \/ m = 6 \/ m = 9 \/ m = 11) /\ d <= 30
   \/ m = 2 /\ (d <= 28 \/ d = 29 /\ leap_year y)
   \/ (m = 1 \/ m = 3 \/ m = 5 \/ m = 7 \/ m = 8 \/ m = 10 \/ m = 12) /\ d <= 31).

(** [day_after a b]: [b] is the calendar day following [a]. *)
Definition day_after (a b : Z * Z * Z) : Prop :=
  let '(y, m, d) := a in
  month_has y m (d + 1) /\ b = (y, m, d + 1)
  \/ ~ month_has y m (d + 1) /\ m < 12 /\ b = (y, m + 1, 1)
  \/ ~ month_has y m (d + 1) /\ m = 12 /\ b = (y + 1, 1, 1).

(** Lexicographic order of strings: at the first difference, or a proper prefix. *)
Definition str_lt (a b : list Z) : Prop :=
  (exists p x y r s, a = p ++ x :: r /\ b = p ++ y :: s /\ x < y) \/ (exists x s, b = a ++ x :: s).

(** The text YYYYMMDDTHHMMSS of a time. *)
Definition iso_text (s : list Z) (y m d H M S : Z) : Prop :=
  exists y1 y2 y3 y4 m1 m2 d1 d2 h1 h2 n1 n2 s1 s2,
    s = [48+y1; 48+y2; 48+y3; 48+y4; 48+m1; 48+m2; 48+d1; 48+d2; 84; 48+h1; 48+h2; 48+n1; 48+n2; 48+s1; 48+s2] /\
    Forall (fun v => 0 <= v <= 9) [y1; y2; y3; y4; m1; m2; d1; d2; h1; h2; n1; n2; s1; s2] /\
    y = 1000*y1 + 100*y2 + 10*y3 + y4 /\ m = 10*m1 + m2 /\ d = 10*d1 + d2 /\
    H = 10*h1 + h2 /\ M = 10*n1 + n2 /\ S = 10*s1 + s2.
