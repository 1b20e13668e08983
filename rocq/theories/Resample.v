(** Model of the construction of cyclic timers for any clock step
    (/repo/trumania/core/clock.py:138-201 and 203-268), without the conditions under which
    Clock.v models it: pandas' resample(rule).pad() (pandas 1.4.0, core/resample.py) and
    NaN in the cumulated profile. *)
From Coq Require Import Qround.
From Verif Require Import Base BaseFacts Rng Utils Relationship Frame Gens Clock.

(** A float that may be NaN. *)
Notation fval := (option Q).

(** resample(): the bins are counted from the midnight before the first date (origin
    'start_day'); the first one is the last that does not start after it
    (core/resample.py _adjust_dates_anchored). *)
Definition grid_start (first cstep : Z) : Z := (first - (first mod day) mod cstep)%Z.

(** The labels of the bins: all those that do not start after the last date
    (core/resample.py _adjust_binner_for_upsample, closed = label = 'left'). *)
Definition grid (first last cstep : Z) : list Z :=
  let start := grid_start first cstep in
  map (fun k => start + Z.of_nat k * cstep)%Z (seq 0 (Z.to_nat ((last - start) / cstep + 1))).

(** Series.reindex(method='pad') on one label: the value of the last date that is not after it;
    NaN before the first one. *)
Fixpoint pad (data : list (Z * fval)) (t : Z) : fval :=
  match data with
  | [] => None
  | (d, v) :: data' =>
      if (t <? d)%Z then None
      else match data' with
           | (d', _) :: _ => if (d' <=? t)%Z then pad data' t else v
           | [] => v
           end
  end.

(** core/resample.py _upsample: "equal sampling", when the dates are already spaced by the
    clock step (at least three are needed to infer the spacing) and as many as the bins: the
    values are kept and the dates replaced.  A spacing of several days may be inferred as
    weeks, months or years, which differ from days; it does not matter when the first date
    is on the grid (both branches give the same: [resampled_aligned]). *)
Definition equal_sampling (n : nat) (step cstep first last : Z) : result bool :=
  if negb (step =? cstep)%Z || (n <? 3) || negb (n =? length (grid first last cstep)) then Ok false
  else if (step mod day =? 0)%Z && negb (step =? day)%Z then
    if (grid_start first cstep =? first)%Z then Ok false else Err Unmodelled
  else Ok true.

(** clock.py:160-170: the weights with their dates, a NaN after the last, resampled, without
    the last row *)
Definition profile_data (weights : list Q) (step init_date : Z) : list (Z * fval) :=
  map (fun kw => (init_date + Z.of_nat (fst kw) * step, Some (snd kw))%Z) (combine (seq 0 (length weights)) weights)
  ++ [(init_date + Z.of_nat (length weights) * step, None)%Z].

Definition resampled (weights : list Q) (step cstep init_date : Z) : result (list (Z * fval)) :=
  let data := profile_data weights step init_date in
  let last := (init_date + Z.of_nat (length weights) * step)%Z in
  let labels := grid init_date last cstep in
  let! equal := equal_sampling (length data) step cstep init_date last in
  let padded := if equal then combine labels (map snd data)
                else map (fun t => (t, pad data t)) labels in
  Ok (removelast padded).

(** Series.sum() and Series.cumsum() skip NaN. *)
Fixpoint fsum (l : list fval) : Q :=
  match l with [] => 0 | None :: l' => fsum l' | Some x :: l' => x + fsum l' end.
Fixpoint fcumsum (acc : Q) (l : list fval) : list fval :=
  match l with
  | [] => []
  | None :: l' => None :: fcumsum acc l'
  | Some x :: l' => Some (acc + x)%Q :: fcumsum (acc + x)%Q l'
  end.

(** clock.py:174: profile_ser / profile_ser.sum(), for weights that are not negative; 0 / 0 is
    NaN *)
Definition fdivide (total : Q) (x : fval) : fval :=
  match x with Some q => if Qeq_bool total 0 then None else Some (q / total)%Q | None => None end.

Definition profile_table (ser : list (Z * fval)) : list (Z * fval) :=
  combine (map fst ser) (fcumsum 0 (map (fdivide (fsum (map snd ser))) (map snd ser))).

(** clock.py:189-201 increment *)
Definition fminus (x y : fval) : fval :=
  match x, y with Some a, Some b => Some (a - b)%Q | _, _ => None end.
Definition set_last_row (l : list (Z * fval)) : list (Z * fval) :=
  match rev l with [] => [] | (d, _) :: r => rev r ++ [(d, Some 1%Q)] end.
Definition rotate_table (l : list (Z * fval)) : list (Z * fval) :=
  match l with
  | [] => []
  | (d0, c0) :: _ =>
      let shifted := map (fun dc => (fst dc, fminus (snd dc) c0)) l in
      set_last_row (skipn 1 shifted ++ firstn 1 shifted)
  end.

Record wide := mkWide { z_config : timer_profile; z_state : rng; z_bins : nat; z_table : list (Z * fval) }.

Definition table_before (now : Z) (l : list (Z * fval)) : bool :=
  match l with [] => false | (d, _) :: _ => (d <? now)%Z end.

(** clock.py:138-187, for positive steps and weights that are not negative, with a bound on
    the number of turns of the alignment loop; the first label of an empty profile raises
    IndexError. *)
Definition new_wide_fuel (fuel : nat) (config : timer_profile) (now cstep : Z) (state : rng) : result wide :=
  if negb ((0 <? cstep) && (0 <? p_step config))%Z || negb (forallb (fun w => Qle_bool 0 w) (p_weights config)) then Err Unmodelled
  else
    let! init_date := latest_date_before (p_start config) now (profile_duration config) in
    let! ser := resampled (p_weights config) (p_step config) cstep init_date in
    match profile_table ser with
    | [] => Err IndexError
    | table =>
        let! aligned := while_fuel fuel (table_before now) rotate_table table in
        Ok (mkWide config state (length ser) aligned)
    end.

Definition new_wide (config : timer_profile) (now cstep : Z) (state : rng) : result wide :=
  new_wide_fuel (Z.to_nat (profile_duration config / cstep + 1)) config now cstep state.

Definition wide_increment (z : wide) : wide :=
  mkWide (z_config z) (z_state z) (z_bins z) (rotate_table (z_table z)).

(** numpy's searchsorted, side 'left' (numpy 1.22.0, core/src/npysort/binsearch.cpp): a NaN of
    the array is not less than any key.  [lo] and [hi] are kept from one key to the next. *)
Definition fless (x : fval) (key : Q) : bool := match x with Some a => Qltb a key | None => false end.

Fixpoint bisect (fuel : nat) (arr : list fval) (key : Q) (lo hi : nat) : nat * nat :=
  match fuel with
  | 0 => (lo, hi)
  | S fuel' =>
      if lo <? hi then
        let mid := lo + (hi - lo) / 2 in
        if fless (nth mid arr None) key then bisect fuel' arr key (S mid) hi else bisect fuel' arr key lo mid
      else (lo, hi)
  end.

Fixpoint search_keys (arr : list fval) (last_key : Q) (lo hi : nat) (keys : list Q) : list nat :=
  match keys with
  | [] => []
  | key :: keys' =>
      let n := length arr in
      let '(lo0, hi0) := if Qltb last_key key then (lo, n) else (0, if hi <? n then S hi else n) in
      let '(lo1, hi1) := bisect (S n) arr key lo0 hi0 in
      lo1 :: search_keys arr key lo1 hi1 keys'
  end.
Definition searchsorted (arr : list fval) (keys : list Q) : list nat :=
  match keys with [] => [] | key :: _ => search_keys arr key 0 (length arr) keys end.

(** clock.py:203-268 generate, as Clock.cyclic_generate *)
Definition wide_cdf (z : wide) : list fval := map snd (z_table z).
Definition low_split (a u : Q) : Z * Q :=
  let n_cycles := (2 * u / a)%Q in (Qfloor n_cycles, (n_cycles - inject_Z (Qfloor n_cycles))%Q).
Definition wide_generate (z : wide) (obs : list (val * Q)) : result (list (val * option Z) * wide) :=
  let low := filter (fun o => is_low (snd o)) obs in
  let (us, st1) := draws uniform (length low) (z_state z) in
  let splits := map (fun '((_, a), u) => low_split a u) (combine low us) in
  let slots := searchsorted (wide_cdf z) (map snd splits) in
  let low_timers := combine (map fst low) (map (fun '(slot, (cycles, _)) => Z.of_nat slot + Z.of_nat (z_bins z) * cycles)%Z (combine slots splits)) in
  let high := filter (fun o => is_high (snd o)) obs in
  let (bs, st2) := draws beta (length high) st1 in
  let high_timers := combine (map fst high) (map Z.of_nat (searchsorted (wide_cdf z) bs)) in
  let all_timers := map (fun '(i, d) => (i, Z.max 0 (d - 1))) (low_timers ++ high_timers) in
  let! timers := reindex_like all_timers obs in
  Ok (timers, mkWide (z_config z) st2 (z_bins z) (z_table z)).
