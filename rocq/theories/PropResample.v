(** Properties of cyclic timers for any profile step and clock step (C117-C119). *)
From Coq Require Import Qround Lqa.
From Verif Require Import Base BaseFacts Rng Utils UtilsFacts Relationship Frame Gens Clock SpecClock Samples ClockFacts ClockProps PropClock
  Resample SpecResample ResampleFacts ResampleProps ResampleBuild ResampleRefine.
Local Open Scope nat_scope.

(** The daily profile on a clock of five hours, at six in the morning. *)
Definition five : Z := (5 * hour)%Z.
Definition six : Z := (monday + 6 * hour)%Z.
Definition five_gen : wide := ok_or (mkWide default_daily_profile (random_state stream 3) 0 []) (new_wide default_daily_profile six five (random_state stream 3)).
Lemma five_live : wide_live default_daily_profile six five 0 five_gen.
Proof. apply (wide_new _ _ _ (random_state stream 3)). unfold five_gen. apply ok_eq1. vm_compute. reflexivity. Qed.
Lemma five_cycle : latest_date_before (p_start default_daily_profile) six (profile_duration default_daily_profile) = Ok monday.
Proof. vm_compute. reflexivity. Qed.
Lemma five_aligned : ~ misaligned default_daily_profile monday five.
Proof. intros [H _]. apply H. vm_compute. reflexivity. Qed.

(** C117: unless the first value is missing, the cumulative distribution of a timer is, after
    any number of ticks and of calls of generate, the one of the weights of the profile at
    the dates of the clock's grid, from the current bin on and around. *)
Theorem C117_distribution p now cstep k z base :
  wide_live p now cstep k z ->
  latest_date_before (p_start p) now (profile_duration p) = Ok base -> ~ misaligned p base cstep ->
  let n := cycle_bins p base cstep in
  (0 < qsum (sampled_weights p base cstep n 0))%Q ->
  z_bins z = n /\ exists J, J < n /\ (now <= grid_start base cstep + Z.of_nat J * cstep < now + cstep)%Z /\
    exists cdf, wide_cdf z = map Some cdf /\ is_cdf_of cdf (sampled_weights p base cstep n (k + J)).
Proof. exact (distribution p now cstep k z base). Qed.
Print Assumptions C117_distribution.

Theorem C117_timers p now cstep k z base obs :
  wide_live p now cstep k z ->
  latest_date_before (p_start p) now (profile_duration p) = Ok base -> ~ misaligned p base cstep ->
  let n := cycle_bins p base cstep in
  (0 < qsum (sampled_weights p base cstep n 0))%Q -> NoDup (map fst obs) ->
  exists J cdf ts z', J < n /\ (now <= grid_start base cstep + Z.of_nat J * cstep < now + cstep)%Z /\
    is_cdf_of cdf (sampled_weights p base cstep n (k + J)) /\ wide_generate z obs = Ok (ts, z') /\
    Forall2 (fun o t => fst t = fst o /\ drawn_timer (search_left cdf) n (snd o) (snd t)) obs ts.
Proof. exact (distribution_timers p now cstep k z base obs). Qed.
Print Assumptions C117_timers.

Theorem C117_timer_bin p now cstep k z base obs ts z' :
  wide_live p now cstep k z ->
  latest_date_before (p_start p) now (profile_duration p) = Ok base -> ~ misaligned p base cstep ->
  let n := cycle_bins p base cstep in
  (0 < qsum (sampled_weights p base cstep n 0))%Q -> NoDup (map fst obs) -> wide_generate z obs = Ok (ts, z') ->
  exists J, J < n /\ (now <= grid_start base cstep + Z.of_nat J * cstep < now + cstep)%Z /\
    forall i d, In (i, Some d) ts -> (1 <= d)%Z -> ((d + 1) mod Z.of_nat n <> 0)%Z ->
    (0 < weight_at p (base + (Z.of_nat (k + J) + d + 1) mod Z.of_nat n * cstep))%Q.
Proof. exact (timer_bin p now cstep k z base obs ts z'). Qed.
Print Assumptions C117_timer_bin.

(** The cycle of the timer lasts what remains of the cycle of the profile once the remainder
    by the clock step is taken away ... *)
Theorem C117_cycle_length p base cstep : (0 < cstep)%Z -> (0 <= profile_duration p)%Z -> grid_start base cstep = base ->
  (Z.of_nat (cycle_bins p base cstep) * cstep = profile_duration p - profile_duration p mod cstep)%Z.
Proof. exact (whole_cycle p base cstep). Qed.
Print Assumptions C117_cycle_length.

(** ... so a daily profile is repeated every 20 hours on a clock of 5 hours, and the timer
    drifts away from the hours of the profile: its first bin, after four ticks, is again the
    one of hour 10 (of weight 9), at the date 06:00 of the next day (of weight 3.8). *)
Theorem C117_daily_cycle_refuted : exists p now cstep z base,
  wide_live p now cstep 0 z /\ latest_date_before (p_start p) now (profile_duration p) = Ok base /\
  (Z.of_nat (z_bins z) * cstep <> profile_duration p)%Z /\
  map fst (z_table (Nat.iter (z_bins z) wide_increment z)) = map fst (z_table z) /\
  (weight_at p (base + 2 * cstep) == 9)%Q /\ (weight_at p (base + 6 * cstep) == 38 # 10)%Q.
Proof.
  exists default_daily_profile, six, five, five_gen, monday. split; [exact five_live|]. split; [exact five_cycle|].
  split; [vm_compute; discriminate|]. split; [vm_compute; reflexivity|]. split; vm_compute; reflexivity.
Qed.
Print Assumptions C117_daily_cycle_refuted.

(** Weights of periods that hold no date of the clock's grid are not used. *)
Theorem C117_all_weights_used_refuted : exists p1 p2 now cstep z1 z2,
  wide_live p1 now cstep 0 z1 /\ wide_live p2 now cstep 0 z2 /\ p_start p1 = p_start p2 /\ p_step p1 = p_step p2 /\
  nth_error (p_weights p1) 1 = Some 0%Q /\ nth_error (p_weights p2) 1 = Some 7%Q /\ z_table z1 = z_table z2.
Proof.
  pose (q1 := mkProfile [1; 0; 2; 4]%Q hour monday). pose (q2 := mkProfile [1; 7; 2; 9]%Q hour monday).
  pose (d := mkWide q1 (random_state stream 3) 0 []). set (two := (2 * hour)%Z).
  exists q1, q2, monday, two, (ok_or d (new_wide q1 monday two (random_state stream 3))), (ok_or d (new_wide q2 monday two (random_state stream 3))).
  split; [apply (wide_new _ _ _ (random_state stream 3)); apply ok_eq1; vm_compute; reflexivity|].
  split; [apply (wide_new _ _ _ (random_state stream 3)); apply ok_eq1; vm_compute; reflexivity|].
  split; [reflexivity|]. split; [reflexivity|]. split; [reflexivity|]. split; [reflexivity|]. vm_compute. reflexivity.
Qed.
Print Assumptions C117_all_weights_used_refuted.

(** The model of Clock.v, with which C28-C32 and the stories are proved, is this one when its
    conditions hold; the linear search it uses is numpy's binary search. *)
Theorem C117_refines p now cstep k y obs :
  live p now cstep k y ->
  wide_live p now cstep k (widen y) /\ wide_cdf (widen y) = map Some (y_cdf y) /\ z_bins (widen y) = y_bins y /\
  wide_generate (widen y) obs = (let! (ts, y') := cyclic_generate y obs in Ok (ts, widen y')).
Proof.
  intros H. split; [exact (widen_live p now cstep k y H)|]. split; [|split; [reflexivity|exact (widen_generate p now cstep k y obs H)]].
  unfold wide_cdf, widen, y_cdf, exact_table. cbn [z_table]. rewrite !map_map. reflexivity.
Qed.
Print Assumptions C117_refines.

Example C117_example :
  wide_live default_daily_profile six five 1 (wide_increment five_gen) /\
  latest_date_before (p_start default_daily_profile) six (profile_duration default_daily_profile) = Ok monday /\
  ~ misaligned default_daily_profile monday five /\ cycle_bins default_daily_profile monday five = 4 /\
  sampled_weights default_daily_profile monday five 4 0 = [1; 4 # 10; 90 # 10; 78 # 10]%Q /\
  z_bins five_gen = 4 /\ hd_error (z_table five_gen) = Some ((monday + 10 * hour)%Z, nth 0 (wide_cdf five_gen) None).
Proof.
  split; [apply wide_tick, five_live|]. split; [exact five_cycle|]. split; [exact five_aligned|].
  split; [vm_compute; reflexivity|]. split; [vm_compute; reflexivity|]. split; [vm_compute; reflexivity|]. vm_compute. reflexivity.
Qed.

(** A profile whose start is not on the clock's grid, but whose step is the clock's. *)
Definition half_past : timer_profile := mkProfile [1; 0; 2]%Q hour (monday + 1800 * second).
Example C117_shifted_example : exists z,
  wide_live half_past (monday + hour) hour 0 z /\
  latest_date_before (p_start half_past) (monday + hour) (profile_duration half_past) = Ok (monday + 1800 * second)%Z /\
  grid_start (monday + 1800 * second) hour = monday /\ ~ misaligned half_past (monday + 1800 * second) hour /\
  (0 < qsum (sampled_weights half_past (monday + 1800 * second) hour (cycle_bins half_past (monday + 1800 * second) hour) 0))%Q.
Proof.
  exists (ok_or (mkWide half_past (random_state stream 3) 0 []) (new_wide half_past (monday + hour) hour (random_state stream 3))).
  split; [apply (wide_new _ _ _ (random_state stream 3)); apply ok_eq1; vm_compute; reflexivity|].
  split; [vm_compute; reflexivity|]. split; [vm_compute; reflexivity|].
  split; [|vm_compute; reflexivity]. intros [_ [H|H]]; [apply H; reflexivity|cbn in H; lia].
Qed.

(** C118: which constructions succeed, loop for ever, or fail. *)
Theorem C118_outcome p now cstep st base :
  (0 < cstep)%Z -> (0 < p_step p)%Z -> p_weights p <> [] -> Forall (fun w => 0 <= w)%Q (p_weights p) ->
  latest_date_before (p_start p) now (profile_duration p) = Ok base ->
  grid_start base cstep = base \/ p_step p <> cstep \/ ~ (day | cstep)%Z \/ cstep = day ->
  let n := cycle_bins p base cstep in
  let last_bin := (grid_start base cstep + Z.of_nat (n - 1) * cstep)%Z in
  (n = 0 -> forall fuel, new_wide_fuel fuel p now cstep st = Err IndexError) /\
  (0 < n -> (last_bin < now)%Z -> forall fuel, new_wide_fuel fuel p now cstep st = Err Diverges) /\
  (0 < n -> (now <= last_bin)%Z -> exists z, new_wide p now cstep st = Ok z /\ z_bins z = n /\
     exists d, option_map fst (hd_error (z_table z)) = Some d /\ (now <= d < now + cstep)%Z /\ (cstep | d - grid_start base cstep)%Z).
Proof.
  intros Hc Hs Hw Hn Hb Hg n last_bin. assert (Hcov : covered p cstep) by (repeat split; assumption).
  destruct (resampled (p_weights p) (p_step p) cstep base) as [ser|e] eqn:Hr.
  - destruct (wide_outcomes p now cstep st base ser Hcov Hb Hr) as (_ & Hdt & _ & O1 & O2 & O3). fold n in Hdt, O1, O2, O3. fold last_bin in O2, O3.
    split; [exact O1|]. split; [exact O2|]. intros H0 Hnow. destruct (O3 H0 Hnow) as (J & HJ & HJ1 & _ & E). eexists. split; [exact E|].
    split; [reflexivity|]. cbn [z_table]. exists (grid_start base cstep + Z.of_nat J * cstep)%Z. split; [|split; [exact HJ1|exists (Z.of_nat J); lia]].
    assert (D : forall j, dated n (grid_start base cstep) cstep j (Nat.iter j rotate_table (profile_table ser))).
    { induction j as [|j IH]; [exact Hdt|]. change (dated n (grid_start base cstep) cstep (S j) (rotate_table (Nat.iter j rotate_table (profile_table ser)))).
      apply dated_step; [exact IH|]. intros E0. apply dated_length in IH. rewrite E0 in IH. cbn in IH. lia. }
    specialize (D J). unfold dated in D. destruct (Nat.iter J rotate_table (profile_table ser)) as [|[d v] t].
    + destruct n; [lia|discriminate].
    + destruct n as [|n']; [lia|]. apply (f_equal (hd 0%Z)) in D. cbn [map seq fst hd] in D. rewrite D. cbn [hd_error option_map fst].
      rewrite Nat.add_0_r, (Nat.mod_small J (S n')) by lia. reflexivity.
  - exfalso. unfold resampled in Hr. pose proof (duration_pos _ _ Hcov) as Hd.
    destruct (equal_sampling_cases (length (profile_data (p_weights p) (p_step p) base)) (p_step p) cstep base (base + Z.of_nat (length (p_weights p)) * p_step p) Hc)
      as [E|[(E & _)|(E & E1 & E2 & E3 & E4)]]; [unfold profile_duration in Hd; lia| | |].
    + rewrite E in Hr. discriminate.
    + rewrite E in Hr. discriminate.
    + destruct Hg as [Hg|[Hg|[Hg|Hg]]]; [contradiction|contradiction| |]; [rewrite E1 in E2; contradiction|]. rewrite E1 in E3. contradiction.
Qed.
Print Assumptions C118_outcome.

(** The daily profile on a clock of 5 hours: every clock that starts after 15:00 and before
    midnight loops for ever. *)
Theorem C118_terminates_refuted : exists p cstep, (0 < cstep)%Z /\
  forall now st fuel, (monday + 15 * hour < now < monday + 24 * hour)%Z -> new_wide_fuel fuel p now cstep st = Err Diverges.
Proof.
  exists default_daily_profile, five. split; [reflexivity|]. intros now st fuel Hnow.
  assert (Hb : latest_date_before (p_start default_daily_profile) now (profile_duration default_daily_profile) = Ok monday).
  { change (p_start default_daily_profile) with monday. change (profile_duration default_daily_profile) with (24 * hour)%Z.
    destruct (latest_date_before_total monday now (24 * hour) ltac:(reflexivity)) as (m & d & E & Hd & H1 & H2). rewrite E. f_equal.
    assert (m = 0)%Z by (unfold hour, second in *; lia). subst. lia. }
  refine (proj1 (proj2 (C118_outcome default_daily_profile now five st monday _ _ _ _ Hb _)) _ _ fuel).
  - reflexivity.
  - reflexivity.
  - discriminate.
  - cbn. repeat constructor; unfold Qle; cbn; lia.
  - left. vm_compute. reflexivity.
  - vm_compute. lia.
  - replace (grid_start monday five + Z.of_nat (cycle_bins default_daily_profile monday five - 1) * five)%Z with (monday + 15 * hour)%Z by (vm_compute; reflexivity). lia.
Qed.
Print Assumptions C118_terminates_refuted.

(** A clock step longer than the profile: the construction fails. *)
Theorem C118_long_step_refuted : exists p now cstep, (0 < cstep)%Z /\ p_weights p <> [] /\
  forall st fuel, new_wide_fuel fuel p now cstep st = Err IndexError.
Proof.
  exists default_daily_profile, (monday + 6 * hour)%Z, (7 * day)%Z. split; [reflexivity|]. split; [discriminate|]. intros st fuel.
  refine (proj1 (C118_outcome default_daily_profile _ _ st monday _ _ _ _ five_cycle _) _ fuel).
  - reflexivity.
  - reflexivity.
  - discriminate.
  - cbn. repeat constructor; unfold Qle; cbn; lia.
  - left. vm_compute. reflexivity.
  - vm_compute. reflexivity.
Qed.
Print Assumptions C118_long_step_refuted.

Example C118_example : exists z, new_wide default_daily_profile six five (random_state stream 3) = Ok z /\ z_bins z = 4.
Proof. exists five_gen. split; [apply ok_eq1; vm_compute; reflexivity|vm_compute; reflexivity]. Qed.

(** C119: when the first resampled value is missing, or all weights at the dates of the grid
    are zero, the weights play no role: the timers of activities above 2 are 0, the others a
    number of whole cycles minus one. *)
Theorem C119_weights_ignored p now cstep k z base obs :
  wide_live p now cstep k z ->
  latest_date_before (p_start p) now (profile_duration p) = Ok base ->
  misaligned p base cstep \/ (qsum (sampled_weights p base cstep (cycle_bins p base cstep) 0) == 0)%Q ->
  NoDup (map fst obs) ->
  exists ts z', wide_generate z obs = Ok (ts, z') /\
    Forall2 (fun o t => fst t = fst o /\ drawn_timer (fun _ => 0) (cycle_bins p base cstep) (snd o) (snd t)) obs ts.
Proof. exact (blank_timers p now cstep k z base obs). Qed.
Print Assumptions C119_weights_ignored.

Theorem C119_busy_members p now cstep k z base obs ts z' :
  wide_live p now cstep k z ->
  latest_date_before (p_start p) now (profile_duration p) = Ok base -> misaligned p base cstep ->
  NoDup (map fst obs) -> (forall o, In o obs -> (2 < snd o)%Q) -> wide_generate z obs = Ok (ts, z') ->
  ts = map (fun o => (fst o, Some 0%Z)) obs.
Proof.
  intros H Hb Hm Hnd H2 G. destruct (blank_timers _ _ _ _ _ _ obs H Hb (or_introl Hm) Hnd) as (ts' & z'' & G' & HT). rewrite G in G'. injection G' as <- <-.
  clear - HT H2. induction HT as [|[i a] [j t] obs ts [E1 E2] HT IH]; [reflexivity|]. cbn [map fst snd] in *. subst j. f_equal.
  - f_equal. specialize (H2 (i, a) (or_introl eq_refl)). cbn [snd] in H2. destruct t as [d|]; [|cbn in E2; lra].
    destruct E2 as [([_ E2] & _)|(_ & u & _ & ->)]; [lra|]. reflexivity.
  - apply IH. intros o Ho. apply H2. now right.
Qed.
Print Assumptions C119_busy_members.

(** A profile of two-hour periods from 00:30 on a clock of one hour, with weight on its
    third period only: members act at once, in a period of weight 0. *)
Definition evening : timer_profile := mkProfile [0; 0; 5]%Q (2 * hour) (monday + 1800 * second).
Theorem C119_follows_profile_refuted : exists p now cstep k z base obs ts z',
  wide_live p now cstep k z /\ latest_date_before (p_start p) now (profile_duration p) = Ok base /\ misaligned p base cstep /\
  wide_generate z obs = Ok (ts, z') /\ ts = [(s_ "a", Some 0%Z); (s_ "b", Some 0%Z)] /\
  weight_at p now = 0%Q /\ weight_at p (now + cstep) = 0%Q.
Proof.
  pose (now := (monday + hour)%Z). pose (d := mkWide evening (random_state stream 3) 0 []).
  assert (E : is_ok (new_wide evening now hour (random_state stream 3)) = true) by (vm_compute; reflexivity).
  pose (z := ok_or d (new_wide evening now hour (random_state stream 3))).
  assert (L : wide_live evening now hour 0 z) by (apply (wide_new _ _ _ (random_state stream 3)); exact (ok_eq1 d _ E)).
  assert (B : latest_date_before (p_start evening) now (profile_duration evening) = Ok (monday + 1800 * second)%Z) by (vm_compute; reflexivity).
  assert (M : misaligned evening (monday + 1800 * second) hour).
  { split; [vm_compute; discriminate|]. left. vm_compute. discriminate. }
  pose (obs := [(s_ "a", 3%Q); (s_ "b", 5%Q)]).
  assert (N : NoDup (map fst obs)) by (rewrite <- nodupb_NoDup; reflexivity).
  destruct (blank_timers _ _ _ _ _ _ obs L B (or_introl M) N) as (ts & z' & G & _).
  exists evening, now, hour, 0, z, (monday + 1800 * second)%Z, obs, ts, z'. split; [exact L|]. split; [exact B|]. split; [exact M|]. split; [exact G|].
  split; [|split; vm_compute; reflexivity].
  rewrite (C119_busy_members _ _ _ _ _ _ obs ts z' L B M N); [reflexivity| |exact G]. intros o [<-|[<-|[]]]; cbn; lra.
Qed.
Print Assumptions C119_follows_profile_refuted.

Example C119_example :
  misaligned evening (monday + 1800 * second) hour /\
  exists z, new_wide evening (monday + hour) hour (random_state stream 3) = Ok z /\ wide_cdf z = [None; None; None; None; None; Some 1%Q].
Proof.
  split; [split; [vm_compute; discriminate|left; vm_compute; discriminate]|].
  exists (ok_or (mkWide evening (random_state stream 3) 0 []) (new_wide evening (monday + hour) hour (random_state stream 3))).
  split; [apply ok_eq1; vm_compute; reflexivity|vm_compute; reflexivity].
Qed.
