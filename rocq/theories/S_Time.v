(** * Specification of calendar times and of their spellings *)
From Verif Require Import M_Base S_Text M_Time.
Open Scope N_scope.

(** ** The Gregorian calendar *)
Definition leap_year (y : N) : Prop := N.divide 4 y /\ (~ N.divide 100 y \/ N.divide 400 y).
Inductive month_length (y : N) : N -> N -> Prop :=
| Jan : month_length y 1 31
| FebLeap : leap_year y -> month_length y 2 29
| Feb : ~ leap_year y -> month_length y 2 28
| Mar : month_length y 3 31
| Apr : month_length y 4 30
| May : month_length y 5 31
| Jun : month_length y 6 30
| Jul : month_length y 7 31
| Aug : month_length y 8 31
| Sep : month_length y 9 30
| Oct : month_length y 10 31
| Nov : month_length y 11 30
| Dec : month_length y 12 31.
Definition calendar_time (t : time) : Prop :=
  (exists k, month_length (t_year t) (t_month t) k /\ 1 <= t_day t <= k) /\ t_hour t < 24 /\ t_min t < 60 /\ t_sec t < 60.

(** The day after. *)
Definition date_of (t : time) : N * N * N := (t_year t, t_month t, t_day t).
Inductive next_day : N * N * N -> N * N * N -> Prop :=
| NextDay y m d k : month_length y m k -> d < k -> next_day (y, m, d) (y, m, d + 1)
| NextMonth y m d : month_length y m d -> m < 12 -> next_day (y, m, d) (y, m + 1, 1)
| NextYear y : next_day (y, 12, 31) (y + 1, 1, 1).

(** ** Spellings *)
Definition width (k : nat) (s : bytes) (n : N) : Prop := numeral s n /\ length s = k.
(** a run of at least one space *)
Definition gap (s : bytes) : Prop := exists k, s = repeat " "%byte (S k).
(** nothing, or a point and digits: a fraction of a second, in nanoseconds *)
Definition fraction_of_second (s : bytes) (ns : N) : Prop :=
  (s = [] /\ ns = 0) \/
  exists d n, s = "."%byte :: d /\ numeral d n /\ n < 1000000000 /\ ns = n * 10 ^ (9 - N.of_nat (length d)).
(** "mm/dd/yyyy hh:mm:ss" with the liberties that time.Parse takes: several spaces,
    an hour of one digit, a fraction of a second. *)
Definition spells (v : bytes) (t : time) : Prop :=
  exists mm dd yy sp hh mi ss fr,
    v = mm ++ "/"%byte :: dd ++ "/"%byte :: yy ++ sp ++ hh ++ ":"%byte :: mi ++ ":"%byte :: ss ++ fr /\
    width 2 mm (t_month t) /\ width 2 dd (t_day t) /\ width 4 yy (t_year t) /\ gap sp /\
    (width 1 hh (t_hour t) \/ width 2 hh (t_hour t)) /\ width 2 mi (t_min t) /\ width 2 ss (t_sec t) /\
    fraction_of_second fr (t_nsec t) /\ calendar_time t.
(** a day of the week, in any mixture of cases *)
Definition same_letter (a b : byte) : Prop :=
  a = b \/ (65 <= b2n a <= 90 /\ b2n b = b2n a + 32) \/ (97 <= b2n a <= 122 /\ b2n a = b2n b + 32).
Definition day_name (s : bytes) : Prop :=
  exists d, In d (map str ["Sun"; "Mon"; "Tue"; "Wed"; "Thu"; "Fri"; "Sat"]%string) /\ Forall2 same_letter s d.
Definition spells_bracketed (v : bytes) (t : time) : Prop :=
  exists w sp dn, v = "["%byte :: w ++ sp ++ dn ++ str "]" /\ spells w t /\ gap sp /\ day_name dn.
(** "mm/dd hh:mm", in the (leap) year 0 *)
Definition spells_short (v : bytes) (t : time) : Prop :=
  t_year t = 0 /\ t_sec t = 0 /\ t_nsec t = 0 /\
  exists mm dd sp hh mi,
    v = mm ++ "/"%byte :: dd ++ sp ++ hh ++ ":"%byte :: mi /\
    width 2 mm (t_month t) /\ width 2 dd (t_day t) /\ gap sp /\
    (width 1 hh (t_hour t) \/ width 2 hh (t_hour t)) /\ width 2 mi (t_min t) /\ calendar_time t.
