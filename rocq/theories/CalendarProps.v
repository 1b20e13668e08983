(** The profiles of profilers.py follow the calendar. *)
From Verif Require Import Base BaseFacts Rng Utils Clock SpecClock ClockFacts ClockProps SpecCalendar.

Lemma monday_days : monday = (16958 * day)%Z. Proof. reflexivity. Qed.
Lemma day_hours : day = (24 * hour)%Z. Proof. reflexivity. Qed.
Lemma day_pos : (0 < day)%Z. Proof. reflexivity. Qed.
Lemma hour_pos : (0 < hour)%Z. Proof. reflexivity. Qed.
Lemma weekday_range t : (0 <= weekday t < 7)%Z.
Proof. apply Z.mod_pos_bound. lia. Qed.
Lemma hour_of_day_eq t : hour_of_day t = ((t / hour) mod 24)%Z.
Proof.
  unfold hour_of_day. rewrite day_hours. rewrite (Z.mul_comm 24), Z.rem_mul_r by (pose proof hour_pos; lia). rewrite (Z.mul_comm hour), Z.div_add by (pose proof hour_pos; lia).
  rewrite Z.mod_div by (pose proof hour_pos; lia). reflexivity.
Qed.
Lemma hour_of_day_range t : (0 <= hour_of_day t < 24)%Z.
Proof. rewrite hour_of_day_eq. apply Z.mod_pos_bound. lia. Qed.
Lemma week_hours t : (((t - monday) / hour) mod 168)%Z = (24 * weekday t + hour_of_day t)%Z.
Proof.
  rewrite monday_days, day_hours. replace (t - 16958 * (24 * hour))%Z with (t + (- 406992) * hour)%Z by lia. rewrite Z.div_add by (pose proof hour_pos; lia).
  rewrite hour_of_day_eq. unfold weekday. rewrite day_hours, (Z.mul_comm 24 hour), <- Z.div_div by (pose proof hour_pos; lia).
  generalize (t / hour)%Z. intros h.
  symmetry. apply (Z.mod_unique _ _ ((h / 24 + 3) / 7 - 2423)); [left|]; pose proof (Z.mod_pos_bound (h / 24 + 3) 7 ltac:(lia)); pose proof (Z.mod_pos_bound h 24 ltac:(lia)); [lia|].
  pose proof (Z.div_mod (h / 24 + 3) 7 ltac:(lia)). pose proof (Z.div_mod h 24 ltac:(lia)). lia.
Qed.
Lemma week_days t : (((t - monday) / day) mod 7)%Z = weekday t.
Proof.
  rewrite monday_days. replace (t - 16958 * day)%Z with (t + (- 16958) * day)%Z by lia. rewrite Z.div_add by (pose proof day_pos; lia). unfold weekday.
  generalize (t / day)%Z. intros d. Z.div_mod_to_equations. lia.
Qed.
Lemma day_hour t : (((t - monday) / hour) mod 24)%Z = hour_of_day t.
Proof.
  rewrite monday_days, day_hours. replace (t - 16958 * (24 * hour))%Z with (t + (- 406992) * hour)%Z by lia. rewrite Z.div_add by (pose proof hour_pos; lia).
  rewrite hour_of_day_eq. generalize (t / hour)%Z. intros h. Z.div_mod_to_equations. lia.
Qed.

Lemma week_day_weights t : weight_at high_week_days_profile t = if at_weekend t then 3%Q else 5%Q.
Proof.
  unfold weight_at, high_week_days_profile, at_weekend. cbn [p_weights p_step p_start]. change (Z.of_nat (length [5; 5; 5; 5; 5; 3; 3]%Q)) with 7%Z. rewrite week_days.
  pose proof (weekday_range t) as H. revert H. generalize (weekday t). intros d H.
  assert (d = 0 \/ d = 1 \/ d = 2 \/ d = 3 \/ d = 4 \/ d = 5 \/ d = 6)%Z as [->|[->|[->|[->|[->|[->| ->]]]]]] by lia; reflexivity.
Qed.
Lemma work_weights first last p t : work_hours_profile first last = Ok p -> (0 <= first)%Z -> (first <= last)%Z -> (last < 24)%Z ->
  (weight_at p t == if at_work first last t then 1 else 0)%Q.
Proof.
  intros E H1 H2 H3. destruct (work_hours_exact first last H1 H2 H3) as (p' & E' & L & S & St & W). assert (p' = p) by congruence. subst p'. clear E E'.
  unfold weight_at. rewrite L, S, St. change (Z.of_nat 168) with 168%Z. rewrite week_hours. pose proof (weekday_range t) as Hd. pose proof (hour_of_day_range t) as Hh.
  rewrite W by lia. unfold in_work_hours, at_work, at_weekend.
  assert (Eh : (Z.to_nat (24 * weekday t + hour_of_day t) / 24) = Z.to_nat (weekday t)).
  { symmetry. apply (Nat.div_unique _ _ _ (Z.to_nat (hour_of_day t))); lia. }
  assert (Em : (Z.to_nat (24 * weekday t + hour_of_day t) mod 24) = Z.to_nat (hour_of_day t)).
  { symmetry. apply (Nat.mod_unique _ _ (Z.to_nat (weekday t))); lia. }
  rewrite Eh, Em, Z2Nat.id by lia.
  replace (Z.to_nat (weekday t) <? 5) with (negb (5 <=? weekday t)%Z); [reflexivity|].
  destruct (Z.leb_spec 5 (weekday t)); destruct (Nat.ltb_spec (Z.to_nat (weekday t)) 5); try reflexivity; lia.
Qed.
Definition daily_weight (h : Z) : Q := nth (Z.to_nat h) (p_weights default_daily_profile) 0%Q.
Lemma daily_weights t : weight_at default_daily_profile t = daily_weight (hour_of_day t).
Proof.
  unfold weight_at, daily_weight. change (p_start default_daily_profile) with monday. change (p_step default_daily_profile) with hour. change (Z.of_nat (length (p_weights default_daily_profile))) with 24%Z.
  now rewrite day_hour.
Qed.
Lemma hour_cases (P : Z -> Prop) : Forall (fun h => P (Z.of_nat h)) (seq 0 24) -> forall h, (0 <= h < 24)%Z -> P h.
Proof. intros H h Hh. rewrite Forall_forall in H. rewrite <- (Z2Nat.id h) by lia. apply H, in_seq. lia. Qed.
Lemma night_weight h : (0 <= h < 6)%Z -> (0 < daily_weight h <= 1)%Q.
Proof. intros H. revert h H. assert (K : forall h, (0 <= h < 24)%Z -> (h < 6)%Z -> (0 < daily_weight h <= 1)%Q).
  { intros h Hh; revert h Hh; match goal with |- forall h, _ -> @?P h => apply (hour_cases P) end. cbn [seq]. repeat (apply Forall_cons; [intros L; first [lia|split; vm_compute; congruence]|]). constructor. }
  intros h H. apply K; lia. Qed.
Lemma day_weight h : (6 <= h < 24)%Z -> (28 # 10 <= daily_weight h <= 105 # 10)%Q.
Proof. intros H. revert h H. assert (K : forall h, (0 <= h < 24)%Z -> (6 <= h)%Z -> (28 # 10 <= daily_weight h <= 105 # 10)%Q).
  { intros h Hh; revert h Hh; match goal with |- forall h, _ -> @?P h => apply (hour_cases P) end. cbn [seq]. repeat (apply Forall_cons; [intros L; first [lia|split; vm_compute; congruence]|]). constructor. }
  intros h H. apply K; lia. Qed.
