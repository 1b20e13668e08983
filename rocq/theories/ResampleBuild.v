(** What the construction of a cyclic timer gives, for any clock step. *)
From Coq Require Import Qround Lqa.
From Verif Require Import Base BaseFacts Rng RngFacts Utils UtilsFacts Relationship RelationshipFacts Frame Gens GensProps Clock SpecClock ClockFacts ClockProps Resample SpecResample ResampleFacts ResampleProps.
Local Open Scope nat_scope.

Lemma resampled_dates ws step cstep init ser : (0 < step)%Z -> (0 < cstep)%Z -> resampled ws step cstep init = Ok ser ->
  map fst ser = map (fun k => grid_start init cstep + Z.of_nat k * cstep)%Z (seq 0 (bins_of init (init + Z.of_nat (length ws) * step) cstep)).
Proof.
  intros Hs Hc H. destruct (Z.eq_dec (grid_start init cstep) init) as [E|E].
  - rewrite resampled_aligned in H by assumption. injection H as <-. rewrite map_map. cbn [fst]. unfold bins_of. rewrite E.
    do 2 f_equal. f_equal. f_equal. lia.
  - exact (proj1 (resampled_shifted ws step cstep init ser Hs Hc E H)).
Qed.

Lemma fcumsum_length l : forall acc, length (fcumsum acc l) = length l.
Proof. induction l as [|[x|] l IH]; intros acc; cbn [fcumsum length]; [reflexivity| |]; now rewrite IH. Qed.

Lemma profile_table_dates ser : map fst (profile_table ser) = map fst ser.
Proof. unfold profile_table. apply map_fst_combine. now rewrite fcumsum_length, !map_length. Qed.

Definition covered (p : timer_profile) (cstep : Z) : Prop :=
  (0 < cstep)%Z /\ (0 < p_step p)%Z /\ p_weights p <> [] /\ Forall (fun w => 0 <= w)%Q (p_weights p).

Lemma duration_pos p cstep : covered p cstep -> (0 < profile_duration p)%Z.
Proof. intros (_ & Hs & Hw & _). unfold profile_duration. destruct (p_weights p); [contradiction|]. cbn [length]. lia. Qed.

Lemma covered_check p cstep : covered p cstep ->
  negb ((0 <? cstep) && (0 <? p_step p))%Z || negb (forallb (fun w => Qle_bool 0 w) (p_weights p)) = false.
Proof.
  intros (Hc & Hs & _ & Hw). destruct (Z.ltb_spec 0 cstep); [|lia]. destruct (Z.ltb_spec 0 (p_step p)); [|lia]. cbn [andb negb orb].
  apply negb_false_iff. apply forallb_forall. intros w Hin. rewrite Forall_forall in Hw. apply Qle_bool_iff. auto.
Qed.

Lemma bins_pos_or fst last cstep : (0 < cstep)%Z -> (fst <= last)%Z ->
  (grid_start fst cstep + Z.of_nat (bins_of fst last cstep) * cstep <= last < grid_start fst cstep + Z.of_nat (bins_of fst last cstep) * cstep + cstep)%Z.
Proof.
  intros Hc Hl. unfold bins_of. pose proof (grid_start_le fst cstep Hc). set (s := grid_start fst cstep) in *.
  rewrite Z2Nat.id by (apply Z.div_pos; lia). pose proof (Z.div_mod (last - s) cstep ltac:(lia)). pose proof (Z.mod_pos_bound (last - s) cstep Hc). nia.
Qed.

(** all outcomes of the construction *)
Lemma wide_outcomes p now cstep st base ser : covered p cstep ->
  latest_date_before (p_start p) now (profile_duration p) = Ok base ->
  resampled (p_weights p) (p_step p) cstep base = Ok ser ->
  let start := grid_start base cstep in
  let n := cycle_bins p base cstep in
  length ser = n /\ dated n start cstep 0 (profile_table ser) /\ (base <= now < base + profile_duration p)%Z /\
  (n = 0 -> forall fuel, new_wide_fuel fuel p now cstep st = Err IndexError) /\
  (0 < n -> (start + Z.of_nat (n - 1) * cstep < now)%Z -> forall fuel, new_wide_fuel fuel p now cstep st = Err Diverges) /\
  (0 < n -> (now <= start + Z.of_nat (n - 1) * cstep)%Z -> exists J, J < n /\ (now <= start + Z.of_nat J * cstep < now + cstep)%Z /\
     (forall fuel, J <= fuel -> new_wide_fuel fuel p now cstep st = Ok (mkWide p st n (Nat.iter J rotate_table (profile_table ser)))) /\
     new_wide p now cstep st = Ok (mkWide p st n (Nat.iter J rotate_table (profile_table ser)))).
Proof.
  intros Hcov Hb Hr start n. pose proof Hcov as (Hc & Hs & Hw & Hn). pose proof (duration_pos _ _ Hcov) as Hd.
  destruct (latest_date_before_total (p_start p) now _ Hd) as (m & d & H & _ & H1 & H2). rewrite Hb in H. injection H as <-.
  pose proof (resampled_dates _ _ _ _ _ Hs Hc Hr) as Hdates. pose proof (grid_start_le base cstep Hc) as Hg. fold start in Hg, Hdates.
  change (bins_of base (base + Z.of_nat (length (p_weights p)) * p_step p) cstep) with n in Hdates.
  assert (Hlen : length ser = n) by (rewrite <- (map_length fst), Hdates, map_length, seq_length; reflexivity).
  assert (Hdt : dated n start cstep 0 (profile_table ser)).
  { unfold dated. rewrite profile_table_dates, Hdates. apply map_ext_in. intros i Hi. apply in_seq in Hi. rewrite Nat.add_0_l, Nat.mod_small by lia. reflexivity. }
  assert (Hbody : forall fuel, new_wide_fuel fuel p now cstep st =
    match profile_table ser with [] => Err IndexError
    | _ => let! aligned := while_fuel fuel (table_before now) rotate_table (profile_table ser) in Ok (mkWide p st n aligned) end).
  { intros fuel. unfold new_wide_fuel. rewrite (covered_check _ _ Hcov), Hb. cbn [bind]. rewrite Hr. cbn [bind]. rewrite Hlen.
    destruct (profile_table ser); reflexivity. }
  pose proof (dated_length _ _ _ _ _ Hdt) as Htl.
  split; [exact Hlen|]. split; [exact Hdt|]. split; [lia|]. split; [|split].
  - intros H0 fuel. rewrite Hbody. destruct (profile_table ser); [reflexivity|]. cbn [length] in Htl. lia.
  - intros H0 Hnow fuel. rewrite Hbody. destruct (profile_table ser) as [|x l] eqn:E; [cbn [length] in Htl; lia|].
    rewrite (table_align_diverges n start cstep now H0) with (l := x :: l); [reflexivity| |exact Hdt]. intros i Hi. nia.
  - intros H0 Hnow. assert (Hlast : (now < start + Z.of_nat n * cstep)%Z) by nia.
    destruct (first_bin cstep start now n) as (J & HJ & J1 & J2 & J3); [exact Hc|lia|exact Hlast|].
    assert (HJn : J < n). { destruct (Nat.eq_dec J n) as [->|]; [|lia]. specialize (J3 (n - 1) ltac:(lia)). lia. }
    assert (Hok : forall fuel, J <= fuel -> new_wide_fuel fuel p now cstep st = Ok (mkWide p st n (Nat.iter J rotate_table (profile_table ser)))).
    { intros fuel Hf. rewrite Hbody. destruct (profile_table ser) as [|x l] eqn:E; [cbn [length] in Htl; lia|].
      rewrite (table_align_ok n start cstep now J HJn J1 J3 fuel 0 (x :: l)); [|lia|lia|exact Hdt]. rewrite Nat.sub_0_r. reflexivity. }
    exists J. split; [exact HJn|]. split; [lia|]. split; [exact Hok|]. apply Hok.
    pose proof (bins_pos_or base (base + profile_duration p) cstep Hc ltac:(lia)) as [HB _]. fold start in HB. change (bins_of base (base + profile_duration p) cstep) with n in HB.
    assert (Hn2 : (Z.of_nat n - 1 <= profile_duration p / cstep)%Z).
    { apply Z.div_le_lower_bound; [exact Hc|]. nia. }
    lia.
Qed.

(** inversion *)
Lemma new_wide_inv p now cstep st z : new_wide p now cstep st = Ok z ->
  Forall (fun w => 0 <= w)%Q (p_weights p) /\ (0 < cstep)%Z /\ (0 < p_step p)%Z /\
  exists base, latest_date_before (p_start p) now (profile_duration p) = Ok base /\
  exists ser, resampled (p_weights p) (p_step p) cstep base = Ok ser.
Proof.
  unfold new_wide, new_wide_fuel. intros H. destruct (negb _ || negb _) eqn:E; [discriminate|].
  apply orb_false_iff in E as [E1 E2]. apply negb_false_iff in E1, E2. apply andb_true_iff in E1 as [E1 E3].
  apply Z.ltb_lt in E1, E3. rewrite forallb_forall in E2.
  split; [apply Forall_forall; intros w Hw; apply Qle_bool_iff; auto|]. split; [exact E1|]. split; [exact E3|].
  destruct (latest_date_before _ _ _) as [base|]; [|discriminate]. cbn [bind] in H. exists base. split; [reflexivity|].
  destruct (resampled _ _ _ _) as [ser|]; [|discriminate]. eauto.
Qed.

Lemma latest_zero_step s now b : latest_date_before s now 0 = Ok b -> False.
Proof.
  unfold latest_date_before. generalize (S (Z.to_nat (Z.abs (now - s) / 0 + 1))). intros fuel. unfold latest_date_before_fuel.
  destruct (while_fuel fuel _ _ s) as [r|] eqn:E; [|discriminate]. cbn [bind]. 
  assert (Hr : (r <= now)%Z).
  { clear -E. revert s E. induction fuel as [|fuel IH]; intros s E; cbn [while_fuel] in E; destruct (Z.ltb_spec now s) as [H|H]; try discriminate;
      try (injection E as <-; lia). exact (IH _ E). }
  rewrite (while_fuel_diverges (fun r => (r <= now)%Z)); [discriminate| | |exact Hr].
  - intros r' H. apply Z.leb_le. lia.
  - intros r' H. lia.
Qed.

Lemma new_wide_built p now cstep st z : new_wide p now cstep st = Ok z ->
  covered p cstep /\ exists base ser J, latest_date_before (p_start p) now (profile_duration p) = Ok base /\
    resampled (p_weights p) (p_step p) cstep base = Ok ser /\
    (base <= now < base + profile_duration p)%Z /\
    J < cycle_bins p base cstep /\ (now <= grid_start base cstep + Z.of_nat J * cstep < now + cstep)%Z /\
    z = mkWide p st (cycle_bins p base cstep) (Nat.iter J rotate_table (profile_table ser)).
Proof.
  intros H. destruct (new_wide_inv _ _ _ _ _ H) as (Hn & Hc & Hs & base & Hb & ser & Hr).
  assert (Hw : p_weights p <> []).
  { intros E. unfold profile_duration in Hb. rewrite E in Hb. cbn [length Z.of_nat] in Hb. rewrite Z.mul_0_l in Hb. exact (latest_zero_step _ _ _ Hb). }
  assert (Hcov : covered p cstep) by (repeat split; assumption). split; [exact Hcov|].
  destruct (wide_outcomes p now cstep st base ser Hcov Hb Hr) as (_ & _ & Hbn & O1 & O2 & O3). set (n := cycle_bins p base cstep) in *.
  exists base, ser. destruct (Nat.eq_dec n 0) as [En|En]; [unfold new_wide in H; rewrite O1 in H by exact En; discriminate|].
  destruct (Z_lt_le_dec (grid_start base cstep + Z.of_nat (n - 1) * cstep) now) as [Hl|Hl].
  - unfold new_wide in H. rewrite O2 in H by (try exact Hl; lia). discriminate.
  - destruct (O3 ltac:(lia) Hl) as (J & HJ & HJ1 & _ & E). exists J. rewrite H in E. injection E as ->. 
    exact (conj Hb (conj Hr (conj Hbn (conj HJ (conj HJ1 eq_refl))))).
Qed.

Lemma wide_generate_same z obs ts z' : wide_generate z obs = Ok (ts, z') ->
  z_config z' = z_config z /\ z_bins z' = z_bins z /\ z_table z' = z_table z.
Proof.
  unfold wide_generate. destruct (draws uniform _ _) as [us st1]. destruct (draws beta _ _) as [bs st2].
  destruct (reindex_like _ _); [|discriminate]. cbn [bind]. intros [= _ <-]. repeat split.
Qed.

Lemma wide_live_inv p now cstep k z : wide_live p now cstep k z ->
  exists st z0, new_wide p now cstep st = Ok z0 /\ z_config z = p /\ z_bins z = z_bins z0 /\ z_table z = Nat.iter k rotate_table (z_table z0).
Proof.
  induction 1 as [st z H|k z H IH|k z obs ts z' H IH G].
  - exists st, z. destruct (new_wide_built _ _ _ _ _ H) as (_ & base & ser & J & _ & _ & _ & _ & _ & ->). cbn. auto.
  - destruct IH as (st & z0 & H1 & H2 & H3 & H4). exists st, z0. cbn [wide_increment z_config z_bins z_table]. rewrite H4. auto.
  - destruct IH as (st & z0 & H1 & H2 & H3 & H4). apply wide_generate_same in G as (G1 & G2 & G3). exists st, z0. rewrite G1, G2, G3. auto.
Qed.

Lemma wide_live_table p now cstep k z : wide_live p now cstep k z ->
  covered p cstep /\ exists base ser J, latest_date_before (p_start p) now (profile_duration p) = Ok base /\
    resampled (p_weights p) (p_step p) cstep base = Ok ser /\
    (base <= now < base + profile_duration p)%Z /\
    J < cycle_bins p base cstep /\ (now <= grid_start base cstep + Z.of_nat J * cstep < now + cstep)%Z /\
    z_bins z = cycle_bins p base cstep /\ z_table z = Nat.iter (k + J) rotate_table (profile_table ser).
Proof.
  intros H. destruct (wide_live_inv _ _ _ _ _ H) as (st & z0 & H1 & H2 & H3 & H4).
  destruct (new_wide_built _ _ _ _ _ H1) as (Hc & base & ser & J & B1 & B2 & B3 & B4 & B5 & ->). split; [exact Hc|]. exists base, ser, J.
  rewrite H4. cbn [z_bins z_table] in *. rewrite iter_add.
  exact (conj B1 (conj B2 (conj B3 (conj B4 (conj B5 (conj H3 eq_refl)))))).
Qed.

(** ** Distribution *)
Lemma weight_at_cycle p base m t : (0 < p_step p)%Z -> base = (p_start p + m * profile_duration p)%Z ->
  (0 <= t < profile_duration p)%Z -> weight_at p (base + t) = nth (Z.to_nat (t / p_step p)) (p_weights p) 0%Q.
Proof.
  intros Hs -> Ht. unfold weight_at, profile_duration in *. f_equal. f_equal. set (n := Z.of_nat (length (p_weights p))) in *.
  replace (p_start p + m * (n * p_step p) + t - p_start p)%Z with (t + (m * n) * p_step p)%Z by lia.
  rewrite Z.div_add by lia. rewrite Z.mod_add by nia. apply Z.mod_small. split; [apply Z.div_pos; lia|]. apply Z.div_lt_upper_bound; [lia|]. lia.
Qed.

Lemma latest_multiple s now step b : (0 < step)%Z -> latest_date_before s now step = Ok b -> exists m, b = (s + m * step)%Z.
Proof.
  intros Hs H. destruct (latest_date_before_total s now step Hs) as (m & d & H1 & H2 & _). rewrite H in H1. injection H1 as ->. eauto.
Qed.

(** the resampled values, when none is missing *)
Lemma resampled_values p base m cstep ser : covered p cstep -> base = (p_start p + m * profile_duration p)%Z -> ~ misaligned p base cstep ->
  resampled (p_weights p) (p_step p) cstep base = Ok ser ->
  map snd ser = map Some (sampled_weights p base cstep (cycle_bins p base cstep) 0).
Proof.
  intros (Hc & Hs & Hw & Hn) Hb Hm Hr. unfold sampled_weights. rewrite map_map. set (n := cycle_bins p base cstep).
  assert (Hd : (0 < profile_duration p)%Z) by (unfold profile_duration; destruct (p_weights p); [contradiction|cbn [length]; lia]).
  pose proof (bins_pos_or base (base + profile_duration p) cstep Hc ltac:(lia)) as HB. change (bins_of base (base + profile_duration p) cstep) with n in HB.
  destruct (Z.eq_dec (grid_start base cstep) base) as [E|E].
  - rewrite resampled_aligned in Hr by assumption. injection Hr as <-. rewrite map_map. cbn [snd].
    assert (En : Z.to_nat (Z.of_nat (length (p_weights p)) * p_step p / cstep) = n).
    { unfold n, cycle_bins, bins_of. rewrite E. unfold profile_duration. f_equal. f_equal. lia. }
    rewrite En. apply map_ext_in. intros k Hk. apply in_seq in Hk. f_equal. rewrite Nat.add_0_l, Nat.mod_small by lia.
    symmetry. apply (weight_at_cycle p base m); [exact Hs|exact Hb|]. rewrite E in HB. nia.
  - assert (E2 : p_step p = cstep /\ 2 <= length (p_weights p)).
    { destruct (Z.eq_dec (p_step p) cstep) as [E1|E1]; [|exfalso; apply Hm; split; [exact E|now left]].
      split; [exact E1|]. destruct (Nat.le_gt_cases 2 (length (p_weights p))) as [H2|H2]; [exact H2|]. exfalso. apply Hm. split; [exact E|right; lia]. }
    destruct E2 as [E1 E2]. destruct (resampled_shifted _ _ _ _ _ Hs Hc E Hr) as (_ & _ & HS). destruct (HS E1 E2) as [-> Hl]. rewrite map_map. cbn [snd].
    change (bins_of base (base + Z.of_nat (length (p_weights p)) * p_step p) cstep) with n in *.
    apply map_ext_in. intros k Hk. apply in_seq in Hk. f_equal. rewrite Nat.add_0_l, Nat.mod_small by lia.
    rewrite (weight_at_cycle p base m); [|exact Hs|exact Hb|unfold profile_duration; nia]. rewrite E1, Z.div_mul by lia. now rewrite Nat2Z.id.
Qed.

Lemma weight_nonneg p t : Forall (fun w => 0 <= w)%Q (p_weights p) -> (0 <= weight_at p t)%Q.
Proof. exact (weight_at_nonneg p t). Qed.

Definition cycle_weight p base cstep n i : Q := weight_at p (base + Z.of_nat (i mod n) * cstep)%Z.

Lemma sampled_as p base cstep n j : sampled_weights p base cstep n j = map (fun i => cycle_weight p base cstep n (j + i)) (seq 0 n).
Proof. reflexivity. Qed.

Lemma distribution p now cstep k z base : wide_live p now cstep k z ->
  latest_date_before (p_start p) now (profile_duration p) = Ok base -> ~ misaligned p base cstep ->
  let n := cycle_bins p base cstep in
  (0 < qsum (sampled_weights p base cstep n 0))%Q ->
  z_bins z = n /\ exists J, J < n /\ (now <= grid_start base cstep + Z.of_nat J * cstep < now + cstep)%Z /\
    exists cdf, wide_cdf z = map Some cdf /\ is_cdf_of cdf (sampled_weights p base cstep n (k + J)).
Proof.
  intros H Hb Hm n Hq. destruct (wide_live_table _ _ _ _ _ H) as (Hcov & base' & ser & J & B1 & B2 & B3 & B4 & B5 & B6 & B7).
  rewrite Hb in B1. injection B1 as <-. fold n in B4, B6. split; [exact B6|]. exists J. split; [exact B4|]. split; [exact B5|].
  pose proof (duration_pos _ _ Hcov) as Hd. destruct (latest_multiple _ _ _ _ Hd Hb) as (m & Hbm).
  pose proof Hcov as (Hc & Hs & Hw & Hn).
  pose proof (resampled_values p base m cstep ser Hcov Hbm Hm B2) as Hv. fold n in Hv.
  pose proof (resampled_dates _ _ _ _ _ Hs Hc B2) as Hdt. change (bins_of base (base + Z.of_nat (length (p_weights p)) * p_step p) cstep) with n in Hdt.
  set (W := cycle_weight p base cstep n).
  assert (HW : forall i, W (i + n) = W i).
  { intros i. unfold W, cycle_weight. replace (i + n) with (i + 1 * n) by lia. rewrite Nat.mod_add by lia. reflexivity. }
  assert (HS : sampled_weights p base cstep n 0 = map W (seq 0 n)) by reflexivity.
  assert (Hp : (0 < pre W n)%Q). { rewrite HS, qsum_window in Hq. cbn [pre Nat.add] in Hq. lra. }
  rewrite (profile_table_exact ser _ Hv) in B7 by lra. rewrite rotate_exact_iter in B7. rewrite Hdt, HS in B7.
  assert (Hr : rotated W n (grid_start base cstep) cstep 0 (combine (map (fun i => grid_start base cstep + Z.of_nat i * cstep)%Z (seq 0 n))
           (cumsum 0 (map (fun w => w / qsum (map W (seq 0 n)))%Q (map W (seq 0 n)))))).
  { apply combine_cdf_rotated; [exact HW|lra]. }
  apply rotated_iter with (k := k + J) in Hr; [|exact HW|lia].
  eexists. split; [unfold wide_cdf; rewrite B7; unfold exact_table; rewrite map_map; cbn [snd]; rewrite <- (map_map snd Some); reflexivity|].
  rewrite sampled_as. exact (rotated_is_cdf W n _ cstep (k + J) _ HW ltac:(lia) Hp Hr).
Qed.

Lemma sampled_nonneg p base cstep n j : Forall (fun w => 0 <= w)%Q (p_weights p) -> Forall (fun w => 0 <= w)%Q (sampled_weights p base cstep n j).
Proof. intros H. apply Forall_forall. intros w Hw. apply in_map_iff in Hw as (i & <- & _). now apply weight_nonneg. Qed.

(** generate draws from that distribution *)
Lemma distribution_timers p now cstep k z base obs : wide_live p now cstep k z ->
  latest_date_before (p_start p) now (profile_duration p) = Ok base -> ~ misaligned p base cstep ->
  let n := cycle_bins p base cstep in
  (0 < qsum (sampled_weights p base cstep n 0))%Q -> NoDup (map fst obs) ->
  exists J cdf ts z', J < n /\ (now <= grid_start base cstep + Z.of_nat J * cstep < now + cstep)%Z /\
    is_cdf_of cdf (sampled_weights p base cstep n (k + J)) /\ wide_generate z obs = Ok (ts, z') /\
    Forall2 (fun o t => fst t = fst o /\ drawn_timer (search_left cdf) n (snd o) (snd t)) obs ts.
Proof.
  intros H Hb Hm n Hq Hnd. destruct (distribution _ _ _ _ _ _ H Hb Hm Hq) as (Hbins & J & HJ & HJ1 & cdf & Hcdf & Hc). fold n in Hbins, HJ, Hc.
  destruct (wide_live_table _ _ _ _ _ H) as ((_ & _ & _ & Hn) & _).
  destruct (wide_timers z obs (search_left cdf)) as (ts & st & E & HT); [|exact Hnd|].
  - intros key _. rewrite Hcdf. apply exact_search. intros i j ci cj Hij Hi Hj.
    destruct (is_cdf_mono cdf _ i j ci cj Hc (sampled_nonneg _ _ _ _ _ Hn) Hij Hi Hj) as (_ & Hle & _). exact Hle.
  - rewrite Hbins in HT. exists J, cdf, ts. eexists. eauto 8.
Qed.

(** ** Missing values *)
Lemma all_missing_table (l : list (Z * fval)) : (forall x, In x l -> snd x = None) -> blank (map snd l).
Proof. intros H. apply Forall_forall. intros x Hx. apply in_map_iff in Hx as (y & <- & Hy). left. auto. Qed.

Lemma blank_iter l : (exists d t, l = (d, None) :: t) \/ (exists d v, l = [(d, v)]) -> forall k, 
  blank (map snd (Nat.iter (S k) rotate_table l)) /\
  ((exists d t, Nat.iter (S k) rotate_table l = (d, None) :: t) \/ (exists d v, Nat.iter (S k) rotate_table l = [(d, v)])).
Proof.
  intros H.
  assert (Step : forall l', (exists d t, l' = (d, None) :: t) \/ (exists d v, l' = [(d, v)]) ->
     blank (map snd (rotate_table l')) /\ ((exists d t, rotate_table l' = (d, None) :: t) \/ (exists d v, rotate_table l' = [(d, v)]))).
  { intros l' [(d & t & ->)|(d & v & ->)].
    - split; [apply blank_rotate; now left|]. rewrite rotate_table_cons. destruct t as [|[d1 c1] t]; cbn [map app fst snd].
      + right. eauto.
      + left. exists d1. eexists. unfold fminus. destruct c1; reflexivity.
    - split; [apply blank_rotate; now right|]. right. rewrite rotate_table_cons. cbn [map app]. eauto. }
  induction k as [|k IH]; [exact (Step l H)|].
  change (Nat.iter (S (S k)) rotate_table l) with (rotate_table (Nat.iter (S k) rotate_table l)). apply Step. apply IH.
Qed.

(** the table of a misaligned profile starts with NaN *)
Lemma table_first ser d v : nth_error ser 0 = Some (d, v) -> v = None -> exists t, profile_table ser = (d, None) :: t.
Proof.
  intros H ->. destruct ser as [|x ser]; [discriminate|]. cbn [nth_error] in H. injection H as ->.
  unfold profile_table. cbn [map fst snd fcumsum combine fdivide]. eauto.
Qed.

Lemma fsum_zero_table ser : (fsum (map snd ser) == 0)%Q -> forall x, In x (profile_table ser) -> snd x = None.
Proof.
  intros H x Hx. unfold profile_table in Hx. destruct x as [d v]. apply in_combine_r in Hx. cbn [snd].
  assert (E : map (fdivide (fsum (map snd ser))) (map snd ser) = map (fun _ => None) (map snd ser)).
  { apply map_ext. intros y. unfold fdivide. destruct y; [|reflexivity]. apply Qeq_bool_iff in H. now rewrite H. }
  rewrite E in Hx. clear E H. revert Hx. generalize 0%Q. induction (map snd ser) as [|y l IH]; intros acc Hx; cbn [map fcumsum] in Hx; [contradiction|].
  destruct Hx as [<-|Hx]; [reflexivity|exact (IH acc Hx)].
Qed.

Lemma blank_live p now cstep k z base : wide_live p now cstep k z ->
  latest_date_before (p_start p) now (profile_duration p) = Ok base ->
  misaligned p base cstep \/ (qsum (sampled_weights p base cstep (cycle_bins p base cstep) 0) == 0)%Q ->
  blank (wide_cdf z) /\ z_bins z = cycle_bins p base cstep.
Proof.
  intros H Hb Hor. destruct (wide_live_table _ _ _ _ _ H) as (Hcov & base' & ser & J & B1 & B2 & B3 & B4 & B5 & B6 & B7).
  rewrite Hb in B1. injection B1 as <-. split; [|exact B6]. unfold wide_cdf. rewrite B7. pose proof Hcov as (Hc & Hs & Hw & Hn).
  assert (D : misaligned p base cstep \/ ~ misaligned p base cstep).
  { unfold misaligned. destruct (Z.eq_dec (grid_start base cstep) base); [right; tauto|]. destruct (Z.eq_dec (p_step p) cstep); [|left; tauto].
    destruct (Nat.le_gt_cases (length (p_weights p)) 1); [left; tauto|right; intros [_ [?|?]]; [contradiction|lia]]. }
  destruct D as [Hm|Hm].
  - destruct Hm as [Hm1 Hm2]. destruct (resampled_shifted _ _ _ _ _ Hs Hc Hm1 B2) as (_ & HS & _).
    change (bins_of base (base + Z.of_nat (length (p_weights p)) * p_step p) cstep) with (cycle_bins p base cstep) in HS.
    destruct HS as ([d v] & E1 & E2); [lia|exact Hm2|]. destruct (table_first ser d v E1 E2) as (t & E).
    assert (HJ : J <> 0). { intros ->. pose proof (grid_start_le base cstep Hc). lia. }
    destruct J as [|J]; [contradiction|]. replace (k + S J) with (S (k + J)) by lia. apply blank_iter. left. eauto.
  - destruct Hor as [|Hor]; [contradiction|].
    pose proof (duration_pos _ _ Hcov) as Hd. destruct (latest_multiple _ _ _ _ Hd Hb) as (m & Hbm).
    pose proof (resampled_values p base m cstep ser Hcov Hbm Hm B2) as Hv.
    assert (Hz : (fsum (map snd ser) == 0)%Q) by (rewrite Hv, fsum_exact; exact Hor).
    pose proof (fsum_zero_table ser Hz) as HN.
    destruct (k + J) as [|i]; [apply all_missing_table; exact HN|]. apply blank_iter. left.
    destruct (profile_table ser) as [|[d v] t] eqn:E.
    + exfalso. assert (length (profile_table ser) = cycle_bins p base cstep); [|rewrite E in *; cbn in *; lia].
      rewrite <- (map_length fst), profile_table_dates, (resampled_dates _ _ _ _ _ Hs Hc B2), map_length, seq_length. reflexivity.
    + exists d, t. f_equal. f_equal. exact (HN (d, v) (or_introl eq_refl)).
Qed.

Lemma blank_timers p now cstep k z base obs : wide_live p now cstep k z ->
  latest_date_before (p_start p) now (profile_duration p) = Ok base ->
  misaligned p base cstep \/ (qsum (sampled_weights p base cstep (cycle_bins p base cstep) 0) == 0)%Q ->
  NoDup (map fst obs) ->
  exists ts z', wide_generate z obs = Ok (ts, z') /\
    Forall2 (fun o t => fst t = fst o /\ drawn_timer (fun _ => 0) (cycle_bins p base cstep) (snd o) (snd t)) obs ts.
Proof.
  intros H Hb Hor Hnd. destruct (blank_live _ _ _ _ _ _ H Hb Hor) as [Hbl Hn].
  destruct (wide_timers z obs (fun _ => 0)) as (ts & st & E & HT); [|exact Hnd|].
  - intros key Hk. now apply blank_search.
  - rewrite Hn in HT. eauto.
Qed.

(** ** Where the timers fall *)
Lemma cdf_positive cdf ws u : is_cdf_of cdf ws -> ws <> [] -> (u <= 1)%Q ->
  search_left cdf u < length ws /\ (search_left cdf u <> 0 -> (0 < nth (search_left cdf u) ws 0)%Q).
Proof.
  intros Hc Hne Hu. pose proof Hc as (Hl & Hp & Hcdf). destruct (is_cdf_last cdf ws Hc) as (c1 & Hc1 & Hc1').
  destruct (search_left_spec cdf u) as (S1 & (cs & Hcs & Hule) & S3).
  { exists c1. split; [eapply nth_error_In; eauto|lra]. }
  set (s := search_left cdf u) in *. split; [lia|]. intros Hs0. destruct s as [|s'] eqn:Es; [contradiction|].
  destruct (nth_error ws (S s')) as [w|] eqn:Ew; [|apply nth_error_None in Ew; lia].
  rewrite (nth_error_nth _ _ _ Ew). pose proof (qsum_firstn_S ws (S s') w Ew) as Hstep.
  destruct (nth_error cdf s') as [cp|] eqn:Ep; [|apply nth_error_None in Ep; lia].
  pose proof (S3 s' cp ltac:(lia) Ep) as Hlt. pose proof (Hcdf _ _ Ep) as Hcp. pose proof (Hcdf _ _ Hcs) as Hcs'.
  rewrite <- Hcp, <- Hcs' in Hstep. assert (cp * qsum ws < cs * qsum ws)%Q by (apply Qmult_lt_r; lra). lra.
Qed.

Lemma Forall2_In_snd {A B} (R : A -> B -> Prop) l1 l2 y : Forall2 R l1 l2 -> In y l2 -> exists x, In x l1 /\ R x y.
Proof. induction 1 as [|x z l1 l2 H1 H2 IH]; cbn; [easy|]. intros [->|H]; [eauto|]. destruct (IH H) as (x' & ? & ?). eauto. Qed.

Lemma timer_bin p now cstep k z base obs ts z' : wide_live p now cstep k z ->
  latest_date_before (p_start p) now (profile_duration p) = Ok base -> ~ misaligned p base cstep ->
  let n := cycle_bins p base cstep in
  (0 < qsum (sampled_weights p base cstep n 0))%Q -> NoDup (map fst obs) -> wide_generate z obs = Ok (ts, z') ->
  exists J, J < n /\ (now <= grid_start base cstep + Z.of_nat J * cstep < now + cstep)%Z /\
    forall i d, In (i, Some d) ts -> (1 <= d)%Z -> ((d + 1) mod Z.of_nat n <> 0)%Z ->
    (0 < weight_at p (base + (Z.of_nat (k + J) + d + 1) mod Z.of_nat n * cstep))%Q.
Proof.
  intros H Hb Hm n Hq Hnd G. destruct (distribution_timers _ _ _ _ _ _ obs H Hb Hm Hq Hnd) as (J & cdf & ts' & z'' & HJ & HJ1 & Hc & G' & HT).
  fold n in HJ, Hc, HT. rewrite G in G'. injection G' as <- <-. exists J. split; [exact HJ|]. split; [exact HJ1|].
  intros i d Hi Hd Hmod. destruct (Forall2_In_snd _ _ _ _ HT Hi) as ([i' a] & Ho & _ & Hdr). cbn [snd] in Hdr.
  assert (Hlen : length (sampled_weights p base cstep n (k + J)) = n) by (unfold sampled_weights; rewrite map_length, seq_length; reflexivity).
  assert (Hne : sampled_weights p base cstep n (k + J) <> []) by (intros E; rewrite E in Hlen; cbn in Hlen; lia).
  assert (Key : exists u f, (u <= 1)%Q /\ (d + 1 = Z.of_nat (search_left cdf u) + f * Z.of_nat n)%Z).
  { destruct Hdr as [(_ & u & _ & E)|(_ & u & Hu & E)].
    - exists (2 * u / a - inject_Z (Qfloor (2 * u / a)))%Q, (Qfloor (2 * u / a)). split; [|rewrite E; rewrite E in Hd; rewrite (Z.mul_comm (Z.of_nat n)) in *; lia].
      generalize (2 * u / a)%Q. intros x. pose proof (Qlt_floor x) as Hx. rewrite inject_Z_plus in Hx. change (inject_Z 1) with 1%Q in Hx. lra.
    - exists u, 0%Z. split; [lra|lia]. }
  destruct Key as (u & f & Hu & E). destruct (cdf_positive cdf _ u Hc Hne Hu) as [Hs1 Hs2]. rewrite Hlen in Hs1.
  rewrite E in Hmod. rewrite Z.mod_add, Z.mod_small in Hmod by lia. specialize (Hs2 ltac:(lia)).
  unfold sampled_weights in Hs2. rewrite (nth_indep _ 0%Q (weight_at p (base + Z.of_nat ((k + J + 0) mod n) * cstep)%Z)) in Hs2 by (rewrite map_length, seq_length; exact Hs1).
  rewrite (map_nth (fun i => weight_at p (base + Z.of_nat ((k + J + i) mod n) * cstep)%Z)), seq_nth in Hs2 by exact Hs1.
  replace ((Z.of_nat (k + J) + d + 1) mod Z.of_nat n)%Z with (Z.of_nat ((k + J + (0 + search_left cdf u)) mod n)); [exact Hs2|].
  rewrite Nat2Z.inj_mod, Nat.add_0_l. replace (Z.of_nat (k + J) + d + 1)%Z with (Z.of_nat (k + J + search_left cdf u) + f * Z.of_nat n)%Z by lia.
  rewrite Z.mod_add by lia. reflexivity.
Qed.

Lemma whole_cycle p base cstep : (0 < cstep)%Z -> (0 <= profile_duration p)%Z -> grid_start base cstep = base ->
  (Z.of_nat (cycle_bins p base cstep) * cstep = profile_duration p - profile_duration p mod cstep)%Z.
Proof.
  intros Hc Hd Hg. unfold cycle_bins, bins_of. rewrite Hg. replace (base + profile_duration p - base)%Z with (profile_duration p) by lia.
  rewrite Z2Nat.id by (apply Z.div_pos; lia). pose proof (Z.div_mod (profile_duration p) cstep ltac:(lia)). lia.
Qed.
