(** Model of /repo/trumania/core/clock.py and
    /repo/trumania/components/time_patterns/profilers.py.
    Dates and durations are integers (nanoseconds). *)
From Coq Require Import Qround.
From Verif Require Import Base BaseFacts Rng Utils Relationship Frame Gens.

Definition second : Z := 1000000000.
Definition hour : Z := 3600 * second.
Definition day : Z := 24 * hour.

(** clock.py:19-45; a listener is the address of a timer generator. *)
Record clock := mkClock {
  c_date : Z;
  c_step : Z;
  c_state : rng;
  c_listeners : list nat
}.

Definition new_clock (g : prng) (start step : Z) (seed : N) : clock :=
  mkClock start step (random_state g seed) [].

(** clock.py:42-45 register_increment_listener *)
Definition register_listener (c : clock) (i : nat) : clock :=
  mkClock (c_date c) (c_step c) (c_state c) (c_listeners c ++ [i]).

(** clock.py:53, the clock's own part of increment (listeners: see World.v). *)
Definition clock_advance (c : clock) : clock :=
  mkClock (c_date c + c_step c) (c_step c) (c_state c) (c_listeners c).

(** clock.py:58-87 get_timestamp, before formatting: dates.  The random ones are
    current_date + choice(int(step in seconds)) seconds; choice refuses an
    empty range unless no sample is asked. *)
Definition get_timestamp (c : clock) (size : nat) (random : bool) : result (list Z * clock) :=
  if random then
    let step_secs := Z.quot (c_step c) second in
    let! (ks, st) := choice (Z.to_nat step_secs) size (c_state c) in
    Ok (map (fun k => c_date c + Z.of_nat k * second)%Z ks,
        mkClock (c_date c) (c_step c) st (c_listeners c))
  else Ok (repeat (c_date c) size, c).

(** clock.py:89-97 n_iterations: int(ceil(duration / step)).  Simplification:
    the division of floats is exact. *)
Definition n_iterations (c : clock) (duration : Z) : result Z :=
  if (c_step c =? 0)%Z then Err ZeroDivisionError
  else Ok (- ((- duration) / c_step c))%Z.

(** ** Cyclic timers *)

(** clock.py:297-317 CyclicTimerProfile *)
Record timer_profile := mkProfile { p_weights : list Q; p_step : Z; p_start : Z }.

(** clock.py:344-349 duration *)
Definition profile_duration (p : timer_profile) : Z := (Z.of_nat (length (p_weights p)) * p_step p)%Z.

(** clock.py:138-187: one row of self.profile is (date, cdf). *)
Record cyclic := mkCyclic {
  y_config : timer_profile;
  y_state : rng;
  y_bins : nat;
  y_profile : list (Z * Q)
}.

Definition y_cdf (y : cyclic) : list Q := map snd (y_profile y).

Definition set_last_one (l : list (Z * Q)) : list (Z * Q) :=
  match rev l with [] => [] | (d, _) :: r => rev r ++ [(d, 1%Q)] end.

(** clock.py:189-201 increment *)
Definition rotate_profile (l : list (Z * Q)) : list (Z * Q) :=
  match l with
  | [] => []
  | (d0, c0) :: _ =>
      let shifted := map (fun '(d, c) => (d, (c - c0)%Q)) l in
      set_last_one (skipn 1 shifted ++ firstn 1 shifted)
  end.
Definition cyclic_increment (y : cyclic) : cyclic :=
  mkCyclic (y_config y) (y_state y) (y_bins y) (rotate_profile (y_profile y)).

(** clock.py:183: while self.profile.index[0] < clock.current_date *)
Definition before_now (now : Z) (l : list (Z * Q)) : bool :=
  match l with [] => false | (d, _) :: _ => (d <? now)%Z end.

(** clock.py:164-179: the profile up-sampled to the clock step, and its cdf.
    Modelled when the clock step divides the profile step, the first date is a
    multiple of the clock step after midnight (so that resample() keeps the
    first bin) and the weights are non-negative with a positive sum. *)
Definition resample_ok (weights : list Q) (step cstep init_date : Z) : bool :=
  ((0 <? cstep) && (0 <? step) && (step mod cstep =? 0) && ((init_date mod day) mod cstep =? 0))%Z
  && forallb (fun w => Qle_bool 0 w) weights && Qltb 0 (qsum weights).

Definition upsample (weights : list Q) (times : nat) : list Q :=
  flat_map (fun w => repeat w times) weights.

Definition initial_profile (weights : list Q) (step cstep init_date : Z) : list (Z * Q) :=
  let up := upsample weights (Z.to_nat (step / cstep)) in
  let cdf := cumsum 0 (map (fun w => w / qsum up)%Q up) in
  combine (map (fun k => init_date + Z.of_nat k * cstep)%Z (seq 0 (length up))) cdf.

(** clock.py:138-187 __init__ (without the registration), with a bound on the
    number of turns of the alignment loop. *)
Definition new_cyclic_fuel (fuel : nat) (config : timer_profile) (now cstep : Z) (state : rng) : result cyclic :=
  let! init_date := latest_date_before (p_start config) now (profile_duration config) in
  if negb (resample_ok (p_weights config) (p_step config) cstep init_date) then Err Unmodelled
  else
    let prof := initial_profile (p_weights config) (p_step config) cstep init_date in
    let! aligned := while_fuel fuel (before_now now) rotate_profile prof in
    Ok (mkCyclic config state (length prof) aligned).

(** One turn of the profile is enough for every terminating construction (see
    [new_cyclic_ok] and [new_cyclic_diverges]). *)
Definition new_cyclic (config : timer_profile) (now cstep : Z) (state : rng) : result cyclic :=
  new_cyclic_fuel (length (p_weights config) * Z.to_nat (p_step config / cstep)) config now cstep state.

(** clock.py:213-235: activities in (0, 2] *)
Definition low_slot (y : cyclic) (a u : Q) : Z :=
  let n_cycles := (2 * u / a)%Q in
  let n_cycles_int := Qfloor n_cycles in
  let timer_slot := (n_cycles - inject_Z n_cycles_int)%Q in
  (Z.of_nat (search_left (y_cdf y) timer_slot) + Z.of_nat (y_bins y) * n_cycles_int)%Z.

(** clock.py:240-253: activities above 2 *)
Definition high_slot (y : cyclic) (u : Q) : Z := Z.of_nat (search_left (y_cdf y) u).

Definition is_low (a : Q) : bool := Qltb 0 a && Qle_bool a 2.
Definition is_high (a : Q) : bool := Qltb 2 a.

(** Series.reindex_like(observations): identical indexes are left alone,
    otherwise the labels of the reindexed Series must be distinct; absent
    labels give NaN (None). *)
Definition reindex_like {A B} (s : list (val * A)) (obs : list (val * B)) : result (list (val * option A)) :=
  if list_eqb (map fst s) (map fst obs) then Ok (map (fun kv => (fst kv, Some (snd kv))) s)
  else if negb (nodupb (map fst s)) then Err ValueError
  else Ok (map (fun o => (fst o, dget (fst o) s)) obs).

(** clock.py:203-268 generate; None is NaN *)
Definition cyclic_generate (y : cyclic) (obs : list (val * Q))
  : result (list (val * option Z) * cyclic) :=
  let low := filter (fun o => is_low (snd o)) obs in
  let (us, st1) := draws uniform (length low) (y_state y) in
  let low_timers := map (fun '((i, a), u) => (i, low_slot y a u)) (combine low us) in
  let high := filter (fun o => is_high (snd o)) obs in
  let (bs, st2) := draws beta (length high) st1 in
  let high_timers := map (fun '((i, _), u) => (i, high_slot y u)) (combine high bs) in
  let all_timers := map (fun '(i, d) => (i, Z.max 0 (d - 1))) (low_timers ++ high_timers) in
  let! timers := reindex_like all_timers obs in
  Ok (timers, mkCyclic (y_config y) st2 (y_bins y) (y_profile y)).

(** clock.py:270-294 activity(n, per); the requested period per/n is computed
    even though it only serves a warning. *)
Definition activity (p : timer_profile) (n : Q) (per : Z) : result Q :=
  if (per =? 0)%Z then Err ZeroDivisionError
  else
    let scale := (inject_Z (profile_duration p) / inject_Z per)%Q in
    if Qeq_bool n 0 then Err ZeroDivisionError
    else Ok (n * scale)%Q.

(** ** profilers.py *)

(** any date at midnight; 6 June 2016 was a Monday *)
Definition monday : Z := 1465171200 * second.

(** profilers.py:7-23 *)
Definition high_week_days_profile : timer_profile :=
  mkProfile [5; 5; 5; 5; 5; 3; 3]%Q day monday.

(** profilers.py:26-59 *)
Definition work_hours_profile (start_hour end_hour : Z) : result timer_profile :=
  if (start_hour <? 0)%Z then Err AssertionError
  else if (24 <=? end_hour)%Z then Err AssertionError
  else if (end_hour <? start_hour)%Z then Err AssertionError
  else
    let before_work := repeat 0%Q (Z.to_nat start_hour) in
    let during_work := repeat 1%Q (Z.to_nat (end_hour - start_hour + 1)) in
    let after_work := repeat 0%Q (Z.to_nat (23 - end_hour)) in
    let week_day := before_work ++ during_work ++ after_work in
    let weekend_day := repeat 0%Q 24 in
    Ok (mkProfile (concat (repeat week_day 5) ++ concat (repeat weekend_day 2)) hour monday).

(** profilers.py:62-83 *)
Definition default_daily_profile : timer_profile :=
  mkProfile [1; 5#10; 2#10; 15#100; 2#10; 4#10; 38#10; 72#10; 84#10; 91#10; 90#10; 83#10; 81#10;
             77#10; 74#10; 78#10; 80#10; 79#10; 97#10; 104#10; 105#10; 88#10; 57#10; 28#10]%Q
            hour monday.

(** ** Timer generators a story may use (Story.__init__, timer_gen)
    - [TConst]: ConstantDependentGenerator(value) (random_generators.py:474-486);
    - [TCyclic];
    - [TOther]: any other dependent generator giving, at its n-th call, one
      counter per observation (indexed as the observations). *)
Inductive tgen :=
| TConst (v : Z)
| TCyclic (y : cyclic)
| TOther (f : nat -> val -> Q -> option Z) (calls : nat).

Definition tgen_generate (t : tgen) (obs : list (val * Q)) : result (list (val * option Z) * tgen) :=
  match t with
  | TConst v => Ok (map (fun o => (fst o, Some v)) obs, t)
  | TCyclic y => let! (ts, y') := cyclic_generate y obs in Ok (ts, TCyclic y')
  | TOther f k => Ok (map (fun o => (fst o, f k (fst o) (snd o))) obs, TOther f (S k))
  end.

Definition tgen_increment (t : tgen) : tgen :=
  match t with
  | TCyclic y => TCyclic (cyclic_increment y)
  | _ => t
  end.

(** clock.py:55-56: each listener is advanced, in registration order; a listener
    is an address among the timer generators. *)
Definition notify (gens : list tgen) (listeners : list nat) : list tgen :=
  fold_left (fun gs i => match nth_error gs i with
                         | Some t => set_nth i (tgen_increment t) gs
                         | None => gs
                         end) listeners gens.

(** clock.py:47-56 increment *)
Definition clock_increment (cg : clock * list tgen) : clock * list tgen :=
  let (c, gens) := cg in (clock_advance c, notify gens (c_listeners c)).
