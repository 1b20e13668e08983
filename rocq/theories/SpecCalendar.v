(** Specification vocabulary: days of the week and hours of the day of dates given in nanoseconds since 1 January
    1970, which was a Thursday. *)
From Verif Require Import Base Clock.

(** 0 is Monday, 6 is Sunday *)
Definition weekday (t : Z) : Z := ((t / day + 3) mod 7)%Z.
(** between 0 and 23 *)
Definition hour_of_day (t : Z) : Z := ((t mod day) / hour)%Z.
Definition at_weekend (t : Z) : bool := (5 <=? weekday t)%Z.
Definition at_work (first last t : Z) : bool := negb (at_weekend t) && (first <=? hour_of_day t)%Z && (hour_of_day t <=? last)%Z.
