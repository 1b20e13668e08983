(** Clock.v is the special case of Resample.v in which no value is missing and the clock step
    divides the profile step. *)
From Coq Require Import Qround Lqa.
From Verif Require Import Base BaseFacts Rng RngFacts Utils UtilsFacts Relationship RelationshipFacts Frame Gens GensProps Clock SpecClock ClockFacts ClockProps Resample SpecResample ResampleFacts ResampleProps ResampleBuild.
Local Open Scope nat_scope.

Definition widen (y : cyclic) : wide := mkWide (y_config y) (y_state y) (y_bins y) (exact_table (y_profile y)).

Lemma widen_tick y : wide_increment (widen y) = widen (cyclic_increment y).
Proof. unfold wide_increment, widen, cyclic_increment. cbn. now rewrite rotate_exact. Qed.

Lemma while_exact fuel now : forall l, while_fuel fuel (table_before now) rotate_table (exact_table l) =
  (let! l' := while_fuel fuel (before_now now) rotate_profile l in Ok (exact_table l')).
Proof.
  assert (B : forall l, table_before now (exact_table l) = before_now now l) by (intros [|[d c] l]; reflexivity).
  induction fuel as [|fuel IH]; intros l; cbn [while_fuel]; rewrite B; destruct (before_now now l); try reflexivity.
  rewrite rotate_exact. apply IH.
Qed.

Lemma refine_new fuel p now cstep st base : latest_date_before (p_start p) now (profile_duration p) = Ok base ->
  resample_ok (p_weights p) (p_step p) cstep base = true ->
  new_wide_fuel fuel p now cstep st = (let! y := new_cyclic_fuel fuel p now cstep st in Ok (widen y)).
Proof.
  intros Hb Hok. pose proof Hok as Hok'. unfold resample_ok in Hok'. rewrite !andb_true_iff in Hok'.
  destruct Hok' as (((((H1 & H2) & H3) & H4) & H5) & H6). apply Z.ltb_lt in H1, H2. apply Z.eqb_eq in H3, H4. apply Qltb_lt in H6.
  assert (Hw : p_weights p <> []) by (intros E; rewrite E in H6; cbn in H6; lra).
  assert (Hcov : covered p cstep).
  { split; [exact H1|]. split; [exact H2|]. split; [exact Hw|]. rewrite forallb_forall in H5. apply Forall_forall. intros w Hin. apply Qle_bool_iff. auto. }
  pose proof (duration_pos _ _ Hcov) as Hd. destruct (latest_multiple _ _ _ _ Hd Hb) as (m & Hbm).
  pose proof (resample_ok_grid p cstep base m Hbm Hok) as Hg. pose proof Hg as [Gc Gs Gd Gb Gl Gn Gq].
  assert (Hstart : grid_start base cstep = base) by (unfold grid_start; lia).
  unfold new_wide_fuel, new_cyclic_fuel. rewrite (covered_check _ _ Hcov), Hb. cbn [bind]. rewrite Hok. cbn [negb].
  destruct (resampled (p_weights p) (p_step p) cstep base) as [ser|] eqn:Hr; [|rewrite resampled_aligned in Hr by assumption; discriminate].
  cbn [bind]. set (n := grid_n p cstep).
  pose proof (times_step p cstep Gc Gs Gd) as Hts.
  assert (En : cycle_bins p base cstep = n).
  { unfold cycle_bins, bins_of. rewrite Hstart. unfold profile_duration, n, grid_n. rewrite Hts at 1.
    replace (base + _ - base)%Z with (Z.of_nat (length (p_weights p)) * Z.of_nat (Z.to_nat (p_step p / cstep)) * cstep)%Z by ring.
    rewrite Z.div_mul by lia. rewrite <- Nat2Z.inj_mul, Nat2Z.id. reflexivity. }
  assert (Hm : ~ misaligned p base cstep) by (intros [H _]; contradiction).
  pose proof (resampled_values p base m cstep ser Hcov Hbm Hm Hr) as Hv. rewrite En in Hv.
  assert (Hup : sampled_weights p base cstep n 0 = upsample (p_weights p) (Z.to_nat (p_step p / cstep))).
  { rewrite (upsample_grid p cstep base m Gc Gs Gd Gb Gl). apply map_ext_in. intros i Hi. apply in_seq in Hi. cbn [Nat.add].
    rewrite Nat.mod_small by exact (proj2 Hi). reflexivity. }
  rewrite Hup in Hv. pose proof (resampled_dates _ _ _ _ _ Gs Gc Hr) as Hdt. rewrite Hstart in Hdt.
  change (bins_of base (base + Z.of_nat (length (p_weights p)) * p_step p) cstep) with (cycle_bins p base cstep) in Hdt. rewrite En in Hdt.
  assert (Hlu : length (upsample (p_weights p) (Z.to_nat (p_step p / cstep))) = n) by (rewrite upsample_length; reflexivity).
  assert (Hq : ~ (qsum (upsample (p_weights p) (Z.to_nat (p_step p / cstep))) == 0)%Q).
  { rewrite <- Hup. change (sampled_weights p base cstep n 0) with (map (cycle_weight p base cstep n) (seq 0 n)).
    rewrite Hup in Hup. intros E. pose proof (grid_total _ _ _ _ Hg) as Hp.
    assert (Hx : (pre (grid_W p base cstep) n == 0)%Q); [|fold n in Hp; lra].
    transitivity (qsum (map (grid_W p base cstep) (seq 0 n))); [rewrite qsum_window; cbn [pre Nat.add]; ring|].
    rewrite <- E. apply eq_subrelation; [typeclasses eauto|]. f_equal. apply map_ext_in. intros i Hi. apply in_seq in Hi. unfold grid_W, cycle_weight. rewrite Nat.mod_small by lia. reflexivity. }
  assert (Ht : profile_table ser = exact_table (initial_profile (p_weights p) (p_step p) cstep base)).
  { rewrite (profile_table_exact ser _ Hv Hq), Hdt. unfold initial_profile. rewrite Hlu. reflexivity. }
  assert (Hls : length ser = length (initial_profile (p_weights p) (p_step p) cstep base)).
  { rewrite (initial_length p cstep base m Hg). rewrite <- (map_length fst), Hdt, map_length, seq_length. reflexivity. }
  assert (Hn0 : 0 < n) by (apply (grid_pos p cstep base m Hg)).
  rewrite Ht, Hls. pose proof (initial_length p cstep base m Hg) as Hil.
  destruct (initial_profile (p_weights p) (p_step p) cstep base) as [|x l] eqn:E; [cbn in Hil; fold n in Hil; lia|].
  transitivity (let! aligned := while_fuel fuel (table_before now) rotate_table (exact_table (x :: l)) in Ok (mkWide p st (length (x :: l)) aligned)); [reflexivity|].
  rewrite while_exact. destruct (while_fuel fuel (before_now now) rotate_profile (x :: l)); reflexivity.
Qed.

Lemma widen_live_new p now cstep st y : new_cyclic p now cstep st = Ok y -> new_wide p now cstep st = Ok (widen y).
Proof.
  intros H. pose proof H as H'. unfold new_cyclic in H'. pose proof (new_cyclic_inv _ _ _ _ _ _ H') as (base & m & J & Hg & Hn & HJ & _).
  unfold new_cyclic_fuel in H'. destruct (latest_date_before (p_start p) now (profile_duration p)) as [b|] eqn:Hb; [|discriminate]. cbn [bind] in H'.
  destruct (resample_ok (p_weights p) (p_step p) cstep b) eqn:Hok; [|discriminate]. clear H'.
  unfold new_wide. rewrite (refine_new _ p now cstep st b Hb Hok).
  assert (E : new_cyclic_fuel (Z.to_nat (profile_duration p / cstep + 1)) p now cstep st = Ok y); [|now rewrite E].
  unfold new_cyclic in H. unfold new_cyclic_fuel in *. rewrite Hb in *. cbn [bind] in *. rewrite Hok in *. cbn [negb] in *.
  destruct (while_fuel (length (p_weights p) * Z.to_nat (p_step p / cstep)) _ _ _) as [l|] eqn:Ew; [|discriminate]. cbn [bind] in H.
  rewrite (while_fuel_mono _ _ _ (Z.to_nat (profile_duration p / cstep + 1)) _ l) with (2 := Ew); [exact H|].
  destruct Hg as [Gc Gs Gd Gb Gl Gn Gq]. pose proof (times_step p cstep Gc Gs Gd) as Hts. unfold profile_duration.
  rewrite Hts at 2. rewrite Z.mul_assoc, Z.div_mul by lia. lia.
Qed.

Lemma live_sorted p now cstep k y : live p now cstep k y ->
  forall key, sorted_for (wide_cdf (widen y)) key /\ is_slot (wide_cdf (widen y)) key (search_left (y_cdf y) key).
Proof.
  intros H. assert (E : wide_cdf (widen y) = map Some (y_cdf y)).
  { unfold wide_cdf, widen, y_cdf, exact_table. cbn [z_table]. rewrite !map_map. reflexivity. }
  rewrite E. apply exact_search. intros i j ci cj Hij Hi Hj. destruct (cdf_shape _ _ _ _ _ H) as [_ Hs].
  destruct (Hs i j ci cj Hij Hi Hj) as (_ & Hle & _). exact Hle.
Qed.

Lemma widen_generate p now cstep k y obs : live p now cstep k y ->
  wide_generate (widen y) obs = (let! (ts, y') := cyclic_generate y obs in Ok (ts, widen y')).
Proof.
  intros H. pose proof (live_sorted _ _ _ _ _ H) as HS. unfold wide_generate, cyclic_generate. change (z_state (widen y)) with (y_state y).
  set (low := filter (fun o => is_low (snd o)) obs). set (high := filter (fun o => is_high (snd o)) obs).
  destruct (draws uniform (length low) (y_state y)) as [us st1] eqn:E1. destruct (draws beta (length high) st1) as [bs st2] eqn:E2.
  pose proof (draws_length _ _ _ _ _ E1) as L1. pose proof (draws_length _ _ _ _ _ E2) as L2. clear E1 E2.
  rewrite !(searchsorted_map _ _ (search_left (y_cdf y))) by (intros; apply HS).
  change (z_bins (widen y)) with (y_bins y). change (z_config (widen y)) with (y_config y). change (z_table (widen y)) with (exact_table (y_profile y)).
  match goal with |- bind (reindex_like ?a _) _ = bind (bind (reindex_like ?b _) _) _ => assert (Heq : a = b); [|rewrite Heq; destruct (reindex_like b obs); reflexivity] end.
  f_equal. f_equal.
  - clearbody low. clear - L1. revert us L1. induction low as [|[i a] low IH]; intros [|u us] HL; cbn in HL; try easy.
    cbn [combine map fst snd]. f_equal. apply IH. lia.
  - clearbody high. clear - L2. revert bs L2. induction high as [|[i a] high IH]; intros [|u bs] HL; cbn in HL; try easy.
    cbn [combine map fst snd]. f_equal. apply IH. lia.
Qed.

Lemma widen_live p now cstep k y : live p now cstep k y -> wide_live p now cstep k (widen y).
Proof.
  induction 1 as [st y H|k y H IH|k y obs ts y' H IH G].
  - apply (wide_new _ _ _ st). now apply widen_live_new.
  - rewrite <- widen_tick. now apply wide_tick.
  - apply (wide_gen _ _ _ k (widen y) obs ts); [exact IH|]. rewrite (widen_generate _ _ _ _ _ _ H), G. reflexivity.
Qed.
