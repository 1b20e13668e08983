(** The profiles of trumania/components/time_patterns/profilers.py follow the calendar (C146). *)
From Verif Require Import Base BaseFacts Rng Utils Clock SpecClock ClockFacts ClockProps SpecCalendar CalendarProps Samples PropClock.
From Coq Require Import Lqa.

(** ** C146.  HighWeekDaysTimerGenerator gives weight 5 to every date between Monday and Friday, 3 to the others. *)
Theorem C146_week_days t : weight_at high_week_days_profile t = if at_weekend t then 3%Q else 5%Q.
Proof. exact (week_day_weights t). Qed.
Print Assumptions C146_week_days.

(** WorkHoursTimerGenerator gives weight 1 to the dates in work hours, 0 to the others ... *)
Theorem C146_work_hours first last p t : work_hours_profile first last = Ok p -> (weight_at p t == if at_work first last t then 1 else 0)%Q.
Proof.
  intros E. apply (work_weights first last p t E); destruct (Z_lt_dec first 0), (Z_le_dec 24 last), (Z_lt_dec last first); try lia;
    rewrite work_hours_rejects in E by lia; discriminate E.
Qed.
Print Assumptions C146_work_hours.

(** ... so that the timers it draws end in work hours, whatever the date at which it was created and the number
    of ticks since (with the exceptions of C31: acting at once, and the last period of the cycle). *)
Theorem C146_drawn_at_work first last p start cstep k y obs ts y' :
  work_hours_profile first last = Ok p -> live p start cstep k y -> NoDup (map fst obs) -> cyclic_generate y obs = Ok (ts, y') ->
  forall i z, In (i, Some z) ts -> (1 <= z)%Z -> ((z + 1) mod Z.of_nat (y_bins y) <> 0)%Z ->
  at_work first last (bin_start p start cstep (Z.of_nat k + z + 1)) = true.
Proof.
  intros E L N G i z Hi Hz Hm. pose proof (C31_timer_bin_partial p start cstep k y obs ts y' L N G i z Hi Hz Hm) as W.
  rewrite (C146_work_hours first last p _ E) in W. destruct (at_work _ _ _); [reflexivity|]. discriminate W.
Qed.
Print Assumptions C146_drawn_at_work.

(** DefaultDailyTimerGenerator: the weight of a date depends on its hour only; any hour from 6 to 23 weighs more
    than twice as any hour of the night; no hour is excluded, and none weighs more than 20 h. *)
Theorem C146_daily t t' : hour_of_day t = hour_of_day t' -> weight_at default_daily_profile t = weight_at default_daily_profile t'.
Proof. intros E. now rewrite !daily_weights, E. Qed.
Print Assumptions C146_daily.

Theorem C146_nights t t' : (hour_of_day t < 6)%Z -> (6 <= hour_of_day t')%Z ->
  (0 < weight_at default_daily_profile t)%Q /\ (2 * weight_at default_daily_profile t < weight_at default_daily_profile t')%Q.
Proof.
  intros H H'. rewrite !daily_weights. pose proof (hour_of_day_range t). pose proof (hour_of_day_range t').
  destruct (night_weight (hour_of_day t)) as [A B]; [lia|]. destruct (day_weight (hour_of_day t')) as [C _]; [lia|]. split; [exact A|]. lra.
Qed.
Print Assumptions C146_nights.

Theorem C146_evenings t t' : hour_of_day t = 20%Z -> (weight_at default_daily_profile t' <= weight_at default_daily_profile t)%Q.
Proof.
  intros H. rewrite !daily_weights, H. change (daily_weight 20) with (105 # 10)%Q. pose proof (hour_of_day_range t').
  destruct (Z_lt_dec (hour_of_day t') 6); [destruct (night_weight (hour_of_day t')); [lia|lra]|destruct (day_weight (hour_of_day t')); [lia|assumption]].
Qed.
Print Assumptions C146_evenings.

(** Wednesday 15 June 2016, 10:30, and the Saturday after; a generator of work hours on a clock of one hour. *)
Example C146_example :
  let wednesday := (monday + 9 * day + 10 * hour + 1800 * second)%Z in let saturday := (wednesday + 3 * day)%Z in
  weekday wednesday = 2%Z /\ hour_of_day wednesday = 10%Z /\ weekday saturday = 5%Z /\ weekday 0 = 3%Z /\
  at_work 9 17 wednesday = true /\ at_work 9 17 saturday = false /\ at_work 9 17 (wednesday + 8 * hour) = false /\
  weight_at high_week_days_profile wednesday = 5%Q /\ weight_at high_week_days_profile saturday = 3%Q /\
  exists p y ts y', work_hours_profile 9 17 = Ok p /\ live p monday hour 0 y /\ cyclic_generate y [(s_ "a", 2%Q)] = Ok (ts, y') /\
    existsb (fun t => match snd t with Some z => (1 <=? z)%Z && negb ((z + 1) mod Z.of_nat (y_bins y) =? 0)%Z | None => false end) ts = true.
Proof.
  cbv zeta. split; [vm_compute; reflexivity|]. split; [vm_compute; reflexivity|]. split; [vm_compute; reflexivity|]. split; [vm_compute; reflexivity|].
  split; [vm_compute; reflexivity|]. split; [vm_compute; reflexivity|]. split; [vm_compute; reflexivity|]. split; [vm_compute; reflexivity|]. split; [vm_compute; reflexivity|].
  pose (d := mkCyclic high_week_days_profile (random_state stream 3) 0 []).
  exists (ok_or high_week_days_profile (work_hours_profile 9 17)). set (p := ok_or high_week_days_profile (work_hours_profile 9 17)).
  assert (E : is_ok (new_cyclic p monday hour (random_state stream 3)) = true) by (vm_compute; reflexivity).
  pose (y := ok_or d (new_cyclic p monday hour (random_state stream 3))).
  assert (G : is_ok (cyclic_generate y [(s_ "a", 2%Q)]) = true) by (vm_compute; reflexivity).
  exists y, (fst (ok_or ([], y) (cyclic_generate y [(s_ "a", 2%Q)]))), (snd (ok_or ([], y) (cyclic_generate y [(s_ "a", 2%Q)]))).
  split; [reflexivity|]. split; [apply (live_new _ _ _ (random_state stream 3)); exact (ok_eq1 d _ E)|]. split; [|vm_compute; reflexivity].
  rewrite <- surjective_pairing. exact (ok_eq1 _ _ G).
Qed.
