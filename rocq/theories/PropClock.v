(** Properties of clocks and timer generators (C26-C32, C34, C35). *)
From Coq Require Import Qround Lqa.
From Verif Require Import Base BaseFacts Rng Utils Relationship Frame Gens Clock SpecClock Samples ClockFacts ClockProps.

(** A three-hour profile with an idle second hour. *)
Definition tri : timer_profile := mkProfile [1; 0; 2]%Q hour monday.
Definition tri_gen : cyclic :=
  ok_or (mkCyclic tri (random_state stream 3) 0 []) (new_cyclic tri monday hour (random_state stream 3)).
Lemma tri_live : live tri monday hour 0 tri_gen.
Proof.
  apply (live_new _ _ _ (random_state stream 3)). unfold tri_gen. apply ok_eq1. vm_compute. reflexivity.
Qed.
Definition sample_clock : clock := new_clock stream monday hour 5.

(** C26 *)
Theorem C26_random_timestamps c size ts c' :
  get_timestamp c size true = Ok (ts, c') ->
  length ts = size /\ c_date c' = c_date c /\ c_step c' = c_step c /\
  Forall (fun t => c_date c <= t < c_date c + c_step c /\ (t - c_date c) mod second = 0)%Z ts.
Proof. exact (timestamps_in_step c size ts c'). Qed.
Print Assumptions C26_random_timestamps.

Theorem C26_fixed_timestamps c size :
  get_timestamp c size false = Ok (repeat (c_date c) size, c).
Proof. exact (timestamps_fixed c size). Qed.
Print Assumptions C26_fixed_timestamps.

(** From one second on the call succeeds ... *)
Theorem C26_total c size : (second <= c_step c)%Z ->
  exists ts c', get_timestamp c size true = Ok (ts, c').
Proof. exact (timestamps_total c size). Qed.
Print Assumptions C26_total.

(** ... but not for a clock step below a second. *)
Theorem C26_subsecond_refuted :
  exists c, (0 < c_step c)%Z /\ get_timestamp c 1 true = Err ValueError.
Proof. exists (new_clock stream monday 500000000 5). split; reflexivity. Qed.
Print Assumptions C26_subsecond_refuted.

Example C26_example : exists ts c', get_timestamp sample_clock 3 true = Ok (ts, c') /\ length ts = 3 /\ NoDup ts.
Proof.
  apply (ok_ex ([], sample_clock)); [vm_compute; reflexivity|]. split; [vm_compute; reflexivity|].
  match goal with |- NoDup ?l => let v := eval vm_compute in l in replace l with v by (vm_compute; reflexivity) end.
  repeat constructor; cbn; lia.
Qed.

(** C27: after [k] ticks the date is start + k * step, and the [i]-th timer
    generator was advanced [k] times per registration. *)
Theorem C27_date_after_ticks c gens k :
  c_date (fst (Nat.iter k clock_increment (c, gens))) = (c_date c + Z.of_nat k * c_step c)%Z.
Proof. exact (clock_date_ticks c gens k). Qed.
Print Assumptions C27_date_after_ticks.

Theorem C27_listeners_advanced c gens k i t :
  nth_error gens i = Some t ->
  nth_error (snd (Nat.iter k clock_increment (c, gens))) i =
    Some (Nat.iter (k * count_occ Nat.eq_dec (c_listeners c) i) tgen_increment t).
Proof. exact (clock_ticks_occ c gens k i t). Qed.
Print Assumptions C27_listeners_advanced.

(** A generator registered once moves one step a tick; the date and every other generator do not
    notice the registration. *)
Theorem C27_registered_once c gens i t k :
  ~ In i (c_listeners c) -> nth_error gens i = Some t ->
  let later := Nat.iter k clock_increment (register_listener c i, gens) in
  let without := Nat.iter k clock_increment (c, gens) in
  nth_error (snd later) i = Some (Nat.iter k tgen_increment t) /\
  (forall j u, j <> i -> nth_error gens j = Some u -> nth_error (snd later) j = nth_error (snd without) j) /\
  c_date (fst later) = c_date (fst without).
Proof.
  intros Hi Ht later without. subst later without. split; [|split].
  - rewrite (clock_ticks_occ _ _ _ _ _ Ht). cbn [register_listener c_listeners].
    rewrite count_occ_app, (proj1 (count_occ_not_In Nat.eq_dec _ _) Hi). cbn [count_occ].
    destruct (Nat.eq_dec i i) as [_|n]; [|now elim n]. cbn [Nat.add]. now rewrite Nat.mul_1_r.
  - intros j u Hj Hu. rewrite !(clock_ticks_occ _ _ _ _ _ Hu). cbn [register_listener c_listeners].
    rewrite count_occ_app. cbn [count_occ]. destruct (Nat.eq_dec i j) as [e|_]; [now elim Hj|]. now rewrite Nat.add_0_r.
  - rewrite !clock_date_ticks. reflexivity.
Qed.
Print Assumptions C27_registered_once.

Example C27_example :
  let c := register_listener sample_clock 1 in
  let gens := [TConst 4; TCyclic tri_gen] in
  nth_error (snd (Nat.iter 2 clock_increment (c, gens))) 1 = Some (TCyclic (ticks 2 tri_gen)) /\
  nth_error (snd (Nat.iter 2 clock_increment (c, gens))) 0 = Some (TConst 4).
Proof. split; reflexivity. Qed.

(** C28: however many ticks and calls to generate happened, the cumulative
    distribution of a timer generator is the one of its profile's weights over
    one cycle starting at the current bin. *)
Theorem C28_profile_follows_clock p start cstep k y :
  live p start cstep k y ->
  (Z.of_nat (y_bins y) * cstep = profile_duration p)%Z /\
  is_cdf_of (y_cdf y) (weights_from p (bin_start p start cstep (Z.of_nat k)) cstep (y_bins y)).
Proof. exact (profile_follows_clock p start cstep k y). Qed.
Print Assumptions C28_profile_follows_clock.

Theorem C28_cdf_shape p start cstep k y :
  live p start cstep k y ->
  (exists c, nth_error (y_cdf y) (y_bins y - 1) = Some c /\ (c == 1)%Q) /\
  forall i j ci cj, i <= j -> nth_error (y_cdf y) i = Some ci -> nth_error (y_cdf y) j = Some cj ->
    (0 <= ci /\ ci <= cj /\ cj <= 1)%Q.
Proof. exact (cdf_shape p start cstep k y). Qed.
Print Assumptions C28_cdf_shape.

Theorem C28_periodic p start cstep k y :
  live p start cstep k y -> Forall2 Qeq (y_cdf (ticks (y_bins y) y)) (y_cdf y).
Proof. exact (cdf_period p start cstep k y). Qed.
Print Assumptions C28_periodic.

(** On the clock: a generator built by the clock and registered to it has, after any number of
    ticks, the distribution of one cycle of its profile that starts at the date the clock shows
    (at the first bin from it on when the profile starts off the grid of the clock). *)
Theorem C28_registered_generator p c gens i st y k :
  new_cyclic p (c_date c) (c_step c) st = Ok y ->
  ~ In i (c_listeners c) -> nth_error gens i = Some (TCyclic y) ->
  let later := Nat.iter k clock_increment (register_listener c i, gens) in
  let now := c_date (fst later) in
  exists y', nth_error (snd later) i = Some (TCyclic y') /\
    (Z.of_nat (y_bins y') * c_step c = profile_duration p)%Z /\
    is_cdf_of (y_cdf y')
      (weights_from p (now + (p_start p - now) mod c_step c) (c_step c) (y_bins y')).
Proof.
  intros Hy Hi Ht later now.
  assert (Hl : live p (c_date c) (c_step c) k (ticks k y)).
  { clear later now. induction k as [|k IH]; [now apply (live_new _ _ _ st)|]. exact (live_tick _ _ _ _ _ IH). }
  exists (ticks k y). split.
  - unfold later. rewrite (proj1 (C27_registered_once c gens i _ k Hi Ht)). f_equal.
    clear. unfold ticks. induction k as [|k IH]; [reflexivity|]. change (tgen_increment (Nat.iter k tgen_increment (TCyclic y)) = TCyclic (cyclic_increment (Nat.iter k cyclic_increment y))).
    rewrite IH. reflexivity.
  - destruct (profile_follows_clock _ _ _ _ _ Hl) as [Hb Hc]. split; [exact Hb|].
    replace (now + (p_start p - now) mod c_step c)%Z with (bin_start p (c_date c) (c_step c) (Z.of_nat k)); [exact Hc|].
    assert (Hn : now = (c_date c + Z.of_nat k * c_step c)%Z) by (unfold now, later; now rewrite clock_date_ticks).
    rewrite Hn. unfold bin_start.
    replace (p_start p - (c_date c + Z.of_nat k * c_step c))%Z
      with (p_start p - c_date c + (- Z.of_nat k) * c_step c)%Z by ring.
    rewrite Z_mod_plus_full. ring.
Qed.
Print Assumptions C28_registered_generator.

Example C28_registered_example :
  exists y', nth_error (snd (Nat.iter 4 clock_increment (register_listener sample_clock 1, [TConst 4; TCyclic tri_gen]))) 1
             = Some (TCyclic y') /\
    Forall2 Qeq (y_cdf y') [0; 2#3; 1]%Q.
Proof.
  eexists. split; [reflexivity|].
  match goal with |- Forall2 _ ?l _ => let v := eval vm_compute in l in replace l with v by (vm_compute; reflexivity) end.
  repeat constructor.
Qed.

Example C28_example : live tri monday hour 1 (cyclic_increment tri_gen) /\
  y_bins tri_gen = 3 /\ weights_from tri (bin_start tri monday hour 1) hour 3 = [0; 2; 1]%Q /\
  Forall2 Qeq (y_cdf (cyclic_increment tri_gen)) [0; 2#3; 1]%Q.
Proof.
  split; [apply live_tick, tri_live|]. split; [vm_compute; reflexivity|]. split; [vm_compute; reflexivity|].
  match goal with |- Forall2 _ ?l _ => let v := eval vm_compute in l in replace l with v by (vm_compute; reflexivity) end.
  repeat constructor.
Qed.

(** C29: with dates on the clock's grid, the construction terminates with its
    first bin at the current date ... *)
Theorem C29_aligned_construction p now cstep st :
  (0 < cstep)%Z -> (0 < p_step p)%Z -> (cstep | p_step p)%Z ->
  ((cstep | day) /\ (cstep | p_start p) \/ (day | cstep) /\ (day | p_start p))%Z ->
  (cstep | now - p_start p)%Z ->
  Forall (fun w => 0 <= w)%Q (p_weights p) -> (0 < qsum (p_weights p))%Q ->
  exists y, new_cyclic p now cstep st = Ok y /\ option_map fst (hd_error (y_profile y)) = Some now.
Proof. exact (aligned_construction p now cstep st). Qed.
Print Assumptions C29_aligned_construction.

(** ... off the grid it still terminates before the last bin of a cycle ... *)
Theorem C29_terminates p now cstep st base :
  latest_date_before (p_start p) now (profile_duration p) = Ok base ->
  resample_ok (p_weights p) (p_step p) cstep base = true ->
  (now <= base + profile_duration p - cstep)%Z ->
  exists y, new_cyclic p now cstep st = Ok y.
Proof. exact (new_cyclic_terminates p now cstep st base). Qed.
Print Assumptions C29_terminates.

(** ... and loops for ever inside the last one. *)
Theorem C29_last_bin_diverges p now cstep st base :
  latest_date_before (p_start p) now (profile_duration p) = Ok base ->
  resample_ok (p_weights p) (p_step p) cstep base = true ->
  (base + profile_duration p - cstep < now)%Z ->
  forall fuel, new_cyclic_fuel fuel p now cstep st = Err Diverges.
Proof. intros H1 H2 H3 fuel. exact (new_cyclic_last_bin fuel p now cstep st base H1 H2 H3). Qed.
Print Assumptions C29_last_bin_diverges.

Theorem C29_always_terminates_refuted :
  exists p now cstep, forall st fuel, new_cyclic_fuel fuel p now cstep st = Err Diverges.
Proof.
  exists default_daily_profile, (monday + 23 * hour + 1800 * second)%Z, hour. intros st fuel.
  apply (new_cyclic_last_bin fuel _ _ _ st monday); vm_compute; reflexivity.
Qed.
Print Assumptions C29_always_terminates_refuted.

Example C29_example :
  exists y, new_cyclic default_daily_profile (monday + 30 * hour) hour (random_state stream 3) = Ok y /\
            option_map fst (hd_error (y_profile y)) = Some (monday + 30 * hour)%Z.
Proof.
  apply aligned_construction; try reflexivity.
  - left. split; [exists 24%Z; reflexivity|exists 406992%Z; reflexivity].
  - exists 30%Z. reflexivity.
  - cbn. repeat constructor; unfold Qle; cbn; lia.
Qed.

(** C30 *)
Theorem C30_valid_timers p start cstep k y obs :
  live p start cstep k y -> NoDup (map fst obs) ->
  exists ts y', cyclic_generate y obs = Ok (ts, y') /\ map fst ts = map fst obs /\
    Forall2 (fun o t => match snd t with
                        | None => (snd o <= 0)%Q
                        | Some z => (0 < snd o)%Q /\ (0 <= z < Z.of_nat (y_bins y) * Qceiling (2 / snd o))%Z
                        end) obs ts.
Proof. exact (generate_timers p start cstep k y obs). Qed.
Print Assumptions C30_valid_timers.

Example C30_example : live tri monday hour 0 tri_gen /\
  NoDup (map fst [(s_ "a", 1%Q); (s_ "b", 5%Q); (s_ "c", 0%Q)]).
Proof. split; [exact tri_live|]. rewrite <- nodupb_NoDup. reflexivity. Qed.

(** C31, part about one generated timer (see PropStory.v for the whole story): a
    timer z >= 1, which makes its member act z + 1 bins later, falls on a bin
    of positive weight.  Missing: timers 0 and draws that fall exactly on the
    start of a cycle. *)
Theorem C31_timer_bin_partial p start cstep k y obs ts y' :
  live p start cstep k y -> NoDup (map fst obs) ->
  cyclic_generate y obs = Ok (ts, y') ->
  forall i z, In (i, Some z) ts -> (1 <= z)%Z -> ((z + 1) mod Z.of_nat (y_bins y) <> 0)%Z ->
  (0 < weight_at p (bin_start p start cstep (Z.of_nat k + z + 1)))%Q.
Proof. exact (generate_weight p start cstep k y obs ts y'). Qed.
Print Assumptions C31_timer_bin_partial.

Example C31_timer_example : exists ts y',
  cyclic_generate tri_gen [(s_ "a", 2 # 3)] = Ok (ts, y') /\ ts = [(s_ "a", Some 4%Z)] /\
  (0 < weight_at tri (bin_start tri monday hour 5))%Q.
Proof.
  apply (ok_ex ([], tri_gen)); [vm_compute; reflexivity|]. split; vm_compute; reflexivity.
Qed.

(** C32: which duplicated observations are supported. *)
Theorem C32_same_class_partial p start cstep k y obs :
  live p start cstep k y ->
  Forall (fun o => 0 < snd o /\ snd o <= 2)%Q obs \/ Forall (fun o => 2 < snd o)%Q obs ->
  exists ts y', cyclic_generate y obs = Ok (ts, y') /\ map fst ts = map fst obs /\
    Forall (fun t => exists z, snd t = Some z /\ 0 <= z)%Z ts.
Proof. exact (generate_duplicates_ok p start cstep k y obs). Qed.
Print Assumptions C32_same_class_partial.

Theorem C32_fails_exactly p start cstep k y obs :
  live p start cstep k y ->
  forall e, cyclic_generate y obs = Err e <->
   e = ValueError /\ map fst (positive_rows obs) <> map fst obs /\ ~ NoDup (map fst (positive_rows obs)).
Proof. exact (generate_fails_iff p start cstep k y obs). Qed.
Print Assumptions C32_fails_exactly.

Theorem C32_mixed_refuted :
  exists p start cstep k y obs, live p start cstep k y /\ cyclic_generate y obs = Err ValueError.
Proof.
  exists tri, monday, hour, 0, tri_gen, [(s_ "a", 3%Q); (s_ "b", 1%Q); (s_ "a", 1%Q)]. split; [exact tri_live|].
  vm_compute. reflexivity.
Qed.
Print Assumptions C32_mixed_refuted.

(** Even without error, rows of a same label can receive each other's timer:
    here the first row, of activity above 2, gets a timer longer than a cycle. *)
Theorem C32_swapped_refuted :
  exists p start cstep k y obs ts y', live p start cstep k y /\ cyclic_generate y obs = Ok (ts, y') /\
    exists a z, nth_error obs 0 = Some (s_ "a", a) /\ (2 < a)%Q /\
      nth_error ts 0 = Some (s_ "a", Some z) /\ (Z.of_nat (y_bins y) < z)%Z.
Proof.
  exists tri, monday, hour, 0, tri_gen, [(s_ "a", 3%Q); (s_ "a", 1 # 100)].
  assert (E : is_ok (cyclic_generate tri_gen [(s_ "a", 3%Q); (s_ "a", 1 # 100)]) = true) by (vm_compute; reflexivity).
  eexists _, _. split; [exact tri_live|]. split; [exact (ok_eq ([], tri_gen) _ E)|].
  exists 3%Q. eexists. split; [reflexivity|]. split; [reflexivity|]. split; vm_compute; reflexivity.
Qed.
Print Assumptions C32_swapped_refuted.

Example C32_example :
  Forall (fun o : val * Q => 0 < snd o /\ snd o <= 2)%Q [(s_ "a", 1%Q); (s_ "b", 2%Q); (s_ "a", 1%Q)].
Proof. repeat constructor; cbn; lra. Qed.

(** C34 *)
Theorem C34_activity_rate p n per : per <> 0%Z -> (~ n == 0)%Q ->
  exists a, activity p n per = Ok a /\ (a * inject_Z per == n * inject_Z (profile_duration p))%Q.
Proof. exact (activity_rate p n per). Qed.
Print Assumptions C34_activity_rate.

Theorem C34_zero_refuted : forall p per, activity p 0 per = Err ZeroDivisionError.
Proof. intros p per. unfold activity. destruct (per =? 0)%Z; reflexivity. Qed.
Print Assumptions C34_zero_refuted.

Example C34_example : exists a, activity tri 4 (6 * hour) = Ok a /\ (a == 2)%Q.
Proof. eexists. split; [reflexivity|]. vm_compute. reflexivity. Qed.

(** C35 *)
Theorem C35_work_hours s e : (0 <= s)%Z -> (s <= e)%Z -> (e < 24)%Z ->
  exists p, work_hours_profile s e = Ok p /\ length (p_weights p) = 168 /\ p_step p = hour /\ p_start p = monday /\
    forall h, h < 168 -> (nth h (p_weights p) 0 == if in_work_hours s e h then 1 else 0)%Q.
Proof. exact (work_hours_exact s e). Qed.
Print Assumptions C35_work_hours.

Theorem C35_rejects s e : (s < 0 \/ 24 <= e \/ e < s)%Z -> work_hours_profile s e = Err AssertionError.
Proof. exact (work_hours_rejects s e). Qed.
Print Assumptions C35_rejects.

Example C35_example : in_work_hours 9 17 (24 + 12) = true /\ in_work_hours 9 17 (24 * 5 + 12) = false.
Proof. split; reflexivity. Qed.
