(** Proofs of the clock and timer properties. *)
From Coq Require Import Qround Lqa.
From Verif Require Import Base BaseFacts Rng RngFacts Utils UtilsFacts Relationship RelationshipFacts Frame Gens GensProps Clock SpecClock ClockFacts.

Definition live_at p start cstep k y base m J : Prop :=
  valid_grid p cstep base m /\ (base <= start < base + profile_duration p)%Z /\
  J < grid_n p cstep /\ (start <= base + Z.of_nat J * cstep < start + cstep)%Z /\
  y_config y = p /\ y_bins y = grid_n p cstep /\
  rotated (grid_W p base cstep) (grid_n p cstep) base cstep (J + k) (y_profile y).

Lemma grid_period p cstep base m : valid_grid p cstep base m ->
  forall i, grid_W p base cstep (i + grid_n p cstep) = grid_W p base cstep i.
Proof. intros [] i. now apply (grid_periodic p cstep base m). Qed.

Lemma grid_pos p cstep base m : valid_grid p cstep base m -> 0 < grid_n p cstep.
Proof. intros []. now apply bins_pos. Qed.

Lemma grid_total p cstep base m : valid_grid p cstep base m ->
  (0 < pre (grid_W p base cstep) (grid_n p cstep))%Q.
Proof. intros []. now apply (pre_total_pos p cstep base m). Qed.

Lemma grid_duration p cstep base m : valid_grid p cstep base m ->
  profile_duration p = (Z.of_nat (grid_n p cstep) * cstep)%Z.
Proof.
  intros []. pose proof (times_step p cstep vg_c vg_s vg_div) as Hts.
  unfold profile_duration, grid_n. rewrite Nat2Z.inj_mul. rewrite Hts at 1. ring.
Qed.

Lemma cyclic_generate_same y obs ts y' :
  cyclic_generate y obs = Ok (ts, y') ->
  y_config y' = y_config y /\ y_bins y' = y_bins y /\ y_profile y' = y_profile y.
Proof.
  unfold cyclic_generate. destruct (draws uniform _ _) as [us st1].
  destruct (draws beta _ _) as [bs st2]. intros H. apply bind_ok in H as (ts' & _ & H).
  injection H as _ <-. easy.
Qed.

Lemma live_inv p start cstep k y : live p start cstep k y ->
  exists base m J, live_at p start cstep k y base m J.
Proof.
  induction 1 as [st y H|k y H IH|k y obs ts y' H IH Hg].
  - apply new_cyclic_inv in H as (base & m & J & H1 & H2 & H3 & H4 & H5 & _ & H6 & H7).
    exists base, m, J. unfold live_at. rewrite Nat.add_0_r.
    exact (conj H1 (conj H2 (conj H3 (conj H4 (conj H5 (conj H6 H7)))))).
  - destruct IH as (base & m & J & H1 & H2 & H3 & H4 & H5 & H6 & H7). exists base, m, J.
    assert (H8 : rotated (grid_W p base cstep) (grid_n p cstep) base cstep (J + S k) (y_profile (cyclic_increment y))).
    { cbn [cyclic_increment y_profile]. rewrite Nat.add_succ_r. apply rotated_step; [|easy|].
      - now apply grid_period with (m := m).
      - eapply rotated_nonempty; [|exact H7]. eapply grid_pos, H1. }
    exact (conj H1 (conj H2 (conj H3 (conj H4 (conj H5 (conj H6 H8)))))).
  - destruct IH as (base & m & J & H1 & H2 & H3 & H4 & H5 & H6 & H7). exists base, m, J.
    apply cyclic_generate_same in Hg as (G1 & G2 & G3). unfold live_at. rewrite G1, G2, G3.
    exact (conj H1 (conj H2 (conj H3 (conj H4 (conj H5 (conj H6 H7)))))).
Qed.

Lemma weights_from_window p base cstep j n :
  weights_from p (base + Z.of_nat j * cstep) cstep n = map (grid_W p base cstep) (seq j n).
Proof.
  unfold weights_from. replace (seq j n) with (map (Nat.add j) (seq 0 n)).
  - rewrite map_map. apply map_ext. intros i. unfold grid_W. f_equal. lia.
  - clear. revert j. induction n as [|n IH]; intros j; [easy|]. cbn [seq map].
    rewrite Nat.add_0_r. f_equal. rewrite <- seq_shift, map_map, <- (IH (S j)).
    apply map_ext. intros. lia.
Qed.

Lemma rotated_cdf p base m cstep j l :
  valid_grid p cstep base m ->
  rotated (grid_W p base cstep) (grid_n p cstep) base cstep j l ->
  is_cdf_of (map snd l) (weights_from p (base + Z.of_nat j * cstep) cstep (grid_n p cstep)).
Proof.
  intros Hg [Hn Hr]. rewrite weights_from_window. unfold is_cdf_of.
  rewrite !map_length, seq_length. split; [easy|].
  pose proof (grid_total _ _ _ _ Hg) as Ht.
  assert (Hs : (qsum (map (grid_W p base cstep) (seq j (grid_n p cstep))) == pre (grid_W p base cstep) (grid_n p cstep))%Q).
  { rewrite qsum_window, pre_period by now apply grid_period with (m := m). ring. }
  split; [now rewrite Hs|]. intros i c Hi. rewrite nth_error_map in Hi.
  destruct (nth_error l i) as [[d c']|] eqn:E; [|easy]. injection Hi as <-.
  destruct (Hr i d c' E) as [_ Hc]. cbn [snd]. rewrite Hs, Hc.
  assert (i < grid_n p cstep). { rewrite <- Hn. apply nth_error_Some. congruence. }
  rewrite firstn_map, firstn_seq by lia. rewrite qsum_window.
  now replace (j + S i) with (j + i + 1) by lia.
Qed.

Lemma bin_start_unique p start cstep base m J :
  valid_grid p cstep base m -> (start <= base + J * cstep < start + cstep)%Z ->
  (base + J * cstep)%Z = bin_start p start cstep 0.
Proof.
  intros Hg Hr. pose proof (grid_duration _ _ _ _ Hg) as Hd. destruct Hg as [Hc Hs Hdv Hb _ _ _].
  unfold bin_start. assert (Hq : (p_start p - start)%Z
    = (base + J * cstep - start + (- (m * Z.of_nat (grid_n p cstep) + J)) * cstep)%Z) by (rewrite Hb, Hd; ring).
  rewrite Hq, Z.mod_add by lia. rewrite Z.mod_small by lia. lia.
Qed.

(** C28 *)
Lemma profile_follows_clock p start cstep k y :
  live p start cstep k y ->
  (Z.of_nat (y_bins y) * cstep = profile_duration p)%Z /\
  is_cdf_of (y_cdf y) (weights_from p (bin_start p start cstep (Z.of_nat k)) cstep (y_bins y)).
Proof.
  intros H. apply live_inv in H as (base & m & J & H1 & H2 & H3 & H4 & H5 & H6 & H7).
  split; [rewrite H6; symmetry; now apply (grid_duration p cstep base m)|].
  rewrite H6. unfold y_cdf.
  replace (bin_start p start cstep (Z.of_nat k)) with (base + Z.of_nat (J + k) * cstep)%Z.
  - now apply (rotated_cdf p base m).
  - pose proof (bin_start_unique _ _ _ _ _ _ H1 H4) as Hb. unfold bin_start in *. lia.
Qed.

(** ** Consequences of being a cumulative distribution *)
Lemma is_cdf_last cdf ws : is_cdf_of cdf ws -> exists c, nth_error cdf (length cdf - 1) = Some c /\ (c == 1)%Q.
Proof.
  intros (Hl & Hp & H). assert (Hne : ws <> []) by (intros ->; cbn in Hp; lra).
  assert (0 < length ws) by (destruct ws; [easy|cbn; lia]).
  destruct (nth_error cdf (length cdf - 1)) as [c|] eqn:E.
  - exists c. split; [easy|]. specialize (H _ _ E). rewrite firstn_all2 in H by lia.
    apply Qmult_inj_r with (z := qsum ws); [lra|]. lra.
  - apply nth_error_None in E. lia.
Qed.

Lemma qsum_firstn_mono ws i j : Forall (fun w => 0 <= w)%Q ws -> i <= j ->
  (qsum (firstn i ws) <= qsum (firstn j ws))%Q.
Proof.
  intros Hf. revert i j. induction Hf as [|w ws Hw Hf IH]; intros [|i] [|j] Hij; cbn; try lia; try lra.
  - specialize (IH 0 j ltac:(lia)). cbn in IH. lra.
  - specialize (IH i j ltac:(lia)). lra.
Qed.

Lemma is_cdf_mono cdf ws i j ci cj : is_cdf_of cdf ws -> Forall (fun w => 0 <= w)%Q ws ->
  i <= j -> nth_error cdf i = Some ci -> nth_error cdf j = Some cj -> (0 <= ci /\ ci <= cj /\ cj <= 1)%Q.
Proof.
  intros (Hl & Hp & H) Hf Hij Hi Hj. pose proof (H _ _ Hi) as H1. pose proof (H _ _ Hj) as H2.
  pose proof (qsum_firstn_mono ws 0 (S i) Hf ltac:(lia)) as M0.
  pose proof (qsum_firstn_mono ws (S i) (S j) Hf ltac:(lia)) as M1.
  pose proof (qsum_firstn_mono ws (S j) (Nat.max (S j) (length ws)) Hf ltac:(lia)) as M2.
  rewrite (firstn_all2 (n := Nat.max _ _)) in M2 by lia. cbn [firstn qsum] in M0.
  rewrite <- H1 in M0, M1. rewrite <- H2 in M1, M2.
  repeat split.
  - apply Qmult_le_r with (z := qsum ws); [easy|]. lra.
  - now apply Qmult_le_r with (z := qsum ws).
  - apply Qmult_le_r with (z := qsum ws); [easy|]. lra.
Qed.

Lemma weight_at_nonneg p t : Forall (fun w => 0 <= w)%Q (p_weights p) -> (0 <= weight_at p t)%Q.
Proof.
  intros H. unfold weight_at.
  destruct (nth_in_or_default (Z.to_nat (((t - p_start p) / p_step p) mod Z.of_nat (length (p_weights p)))) (p_weights p) 0%Q) as [Hin| ->].
  - rewrite Forall_forall in H. now apply H.
  - apply Qle_refl.
Qed.

Lemma weights_from_nonneg p t cstep n : Forall (fun w => 0 <= w)%Q (p_weights p) ->
  Forall (fun w => 0 <= w)%Q (weights_from p t cstep n).
Proof.
  intros H. apply Forall_forall. intros w Hw. unfold weights_from in Hw.
  apply in_map_iff in Hw as (i & <- & _). now apply weight_at_nonneg.
Qed.

Lemma live_nonneg p start cstep k y : live p start cstep k y -> Forall (fun w => 0 <= w)%Q (p_weights p).
Proof. intros H. apply live_inv in H as (base & m & J & H1 & _). now destruct H1. Qed.

Lemma cdf_shape p start cstep k y :
  live p start cstep k y ->
  (exists c, nth_error (y_cdf y) (y_bins y - 1) = Some c /\ (c == 1)%Q) /\
  forall i j ci cj, i <= j -> nth_error (y_cdf y) i = Some ci -> nth_error (y_cdf y) j = Some cj ->
    (0 <= ci /\ ci <= cj /\ cj <= 1)%Q.
Proof.
  intros H. pose proof (live_nonneg _ _ _ _ _ H) as Hnn.
  destruct (profile_follows_clock _ _ _ _ _ H) as (_ & Hc). split.
  - destruct (is_cdf_last _ _ Hc) as (c & Hi & Hc1). exists c. split; [|easy]. rewrite <- Hi.
    f_equal. destruct Hc as [Hl _]. rewrite Hl. unfold weights_from. now rewrite map_length, seq_length.
  - intros i j ci cj. eapply is_cdf_mono; [exact Hc|]. now apply weights_from_nonneg.
Qed.

Lemma cdf_period p start cstep k y :
  live p start cstep k y ->
  Forall2 Qeq (y_cdf (ticks (y_bins y) y)) (y_cdf y).
Proof.
  intros H. pose proof H as Hlive. apply live_inv in H as (base & m & J & H1 & H2 & H3 & H4 & H5 & H6 & H7).
  assert (Hb : forall n, y_bins (ticks n y) = y_bins y /\
     rotated (grid_W p base cstep) (grid_n p cstep) base cstep (J + k + n) (y_profile (ticks n y))).
  { induction n as [|n [IH1 IH2]]; [now rewrite Nat.add_0_r|]. split; [exact IH1|].
    rewrite Nat.add_succ_r. cbn [ticks Nat.iter]. unfold ticks in *. cbn [Nat.iter nat_rect cyclic_increment y_profile].
    apply rotated_step; [now apply grid_period with (m := m)|easy|].
    eapply rotated_nonempty; [|exact IH2]. eapply grid_pos, H1. }
  destruct (Hb (y_bins y)) as [_ Hr]. rewrite H6 in Hr at 1. clear Hb.
  unfold y_cdf. generalize dependent (y_profile (ticks (y_bins y) y)). intros l2 Hr.
  destruct H7 as [L1 R1]. destruct Hr as [L2 R2]. pose proof (grid_total _ _ _ _ H1) as Ht.
  assert (Hpt : forall i c2 c1, nth_error l2 i = Some c2 -> nth_error (y_profile y) i = Some c1 -> (snd c2 == snd c1)%Q).
  { intros i [d2 c2] [d1 c1] E2 E1. apply R2 in E2 as [_ E2]. apply R1 in E1 as [_ E1]. cbn [snd].
    apply Qmult_inj_r with (z := pre (grid_W p base cstep) (grid_n p cstep)); [lra|]. rewrite E1, E2.
    replace (J + k + grid_n p cstep + i + 1) with (J + k + i + 1 + grid_n p cstep) by lia.
    rewrite (pre_period _ _ (grid_period _ _ _ _ H1) (J + k + i + 1)), (pre_period _ _ (grid_period _ _ _ _ H1) (J + k)). ring. }
  clear - L1 L2 Hpt. assert (Hl : length l2 = length (y_profile y)) by congruence. clear L1 L2.
  revert Hl Hpt. generalize (y_profile y). clear. induction l2 as [|x l2 IH]; intros [|x1 l1] Hl H; cbn in Hl; try easy; constructor.
  - exact (H 0 x x1 eq_refl eq_refl).
  - apply IH; [lia|]. intros i. exact (H (S i)).
Qed.

(** ** Searching *)
Lemma search_left_spec cdf u : (exists c, In c cdf /\ u <= c)%Q ->
  search_left cdf u < length cdf /\
  (exists c, nth_error cdf (search_left cdf u) = Some c /\ u <= c)%Q /\
  (forall i c, i < search_left cdf u -> nth_error cdf i = Some c -> (c < u)%Q).
Proof.
  induction cdf as [|c cdf IH]; intros (c0 & Hin & Hu); [easy|]. cbn [search_left].
  destruct (Qltb c u) eqn:E.
  - apply Qltb_lt in E. destruct Hin as [->|Hin]; [lra|]. destruct IH as (H1 & H2 & H3); [eauto|].
    cbn [length]. split; [lia|]. split; [exact H2|]. intros [|i] c' Hi; cbn [nth_error].
    + now intros [= <-].
    + apply H3. lia.
  - apply Qltb_nlt in E. cbn [length]. split; [lia|]. split; [exists c; easy|]. intros i c' Hi. lia.
Qed.

Lemma qsum_firstn_S ws : forall s q, nth_error ws s = Some q ->
  (qsum (firstn (S s) ws) == qsum (firstn s ws) + q)%Q.
Proof.
  induction ws as [|w ws IH]; intros [|s] q; cbn [nth_error]; try easy.
  - intros [= ->]. cbn. ring.
  - intros Hq. change (firstn (S (S s)) (w :: ws)) with (w :: firstn (S s) ws).
    change (firstn (S s) (w :: ws)) with (w :: firstn s ws). cbn [qsum]. rewrite (IH _ _ Hq). ring.
Qed.

Lemma cdf_search p start cstep k y u :
  live p start cstep k y -> (u <= 1)%Q ->
  search_left (y_cdf y) u < y_bins y /\
  ((0 < u)%Q \/ search_left (y_cdf y) u <> 0 ->
   (0 < weight_at p (bin_start p start cstep (Z.of_nat k + Z.of_nat (search_left (y_cdf y) u))))%Q).
Proof.
  intros H Hu. pose proof (cdf_shape _ _ _ _ _ H) as [(c1 & Hc1 & Hc1') _].
  destruct (profile_follows_clock _ _ _ _ _ H) as (_ & Hc).
  destruct (search_left_spec (y_cdf y) u) as (S1 & (cs & Hcs & Hule) & S3).
  { exists c1. split; [eapply nth_error_In; eauto|lra]. }
  destruct Hc as (Hl & Hp & Hc). assert (Hlen : length (y_cdf y) = y_bins y).
  { rewrite Hl. unfold weights_from. now rewrite map_length, seq_length. }
  split; [lia|]. set (s := search_left (y_cdf y) u) in *.
  set (ws := weights_from p (bin_start p start cstep (Z.of_nat k)) cstep (y_bins y)) in *.
  assert (Hw : nth_error ws s = Some (weight_at p (bin_start p start cstep (Z.of_nat k + Z.of_nat s)))).
  { unfold ws, weights_from. rewrite nth_error_map, (nth_error_nth' _ 0), seq_nth by (rewrite ?seq_length; lia).
    cbn [option_map Nat.add]. f_equal. f_equal. unfold bin_start. lia. }
  pose proof (Hc _ _ Hcs) as Hcs'.
  assert (Hstep : (qsum (firstn (S s) ws) == qsum (firstn s ws) + weight_at p (bin_start p start cstep (Z.of_nat k + Z.of_nat s)))%Q).
  { now apply qsum_firstn_S. }
  clearbody s. intros Hor. destruct s as [|s'].
  - destruct Hor as [Hor|]; [|easy]. cbn [firstn qsum] in Hstep. rewrite Hstep in Hcs'.
    assert (0 < cs * qsum ws)%Q by (apply Qmult_lt_0_compat; lra). lra.
  - destruct (nth_error (y_cdf y) s') as [cp|] eqn:Ep; [|apply nth_error_None in Ep; lia].
    pose proof (S3 s' cp ltac:(lia) Ep) as Hlt. pose proof (Hc _ _ Ep) as Hcp.
    rewrite <- Hcp, <- Hcs' in Hstep.
    assert (cp * qsum ws < cs * qsum ws)%Q by (apply Qmult_lt_r; lra). lra.
Qed.

Lemma weight_at_period p t c : (0 < p_step p)%Z -> p_weights p <> [] ->
  weight_at p (t + c * profile_duration p) = weight_at p t.
Proof.
  intros Hs Hl. unfold weight_at, profile_duration. do 2 f_equal.
  assert (0 < Z.of_nat (length (p_weights p)))%Z by (destruct (p_weights p); [easy|cbn; lia]).
  replace (t + c * (Z.of_nat (length (p_weights p)) * p_step p) - p_start p)%Z
    with (t - p_start p + (c * Z.of_nat (length (p_weights p))) * p_step p)%Z by ring.
  rewrite Z.div_add by lia. now rewrite Z.mod_add by lia.
Qed.

Lemma live_profile p start cstep k y : live p start cstep k y ->
  (0 < cstep)%Z /\ (0 < p_step p)%Z /\ p_weights p <> [] /\ 0 < y_bins y.
Proof.
  intros H. apply live_inv in H as (base & m & J & H1 & _ & H3 & _ & _ & H6 & _).
  pose proof (grid_pos _ _ _ _ H1). rewrite H6. now destruct H1.
Qed.

(** What a slot (the timer before the "max(0, d - 1)") satisfies. *)
Definition slot_ok p start cstep k (y : cyclic) (a : Q) (d : Z) : Prop :=
  (0 <= d < Z.of_nat (y_bins y) * Qceiling (2 / a))%Z /\
  ((d mod Z.of_nat (y_bins y))%Z <> 0%Z -> (0 < weight_at p (bin_start p start cstep (Z.of_nat k + d)))%Q).

Lemma Qceiling_pos q : (0 < q)%Q -> (1 <= Qceiling q)%Z.
Proof.
  intros H. assert (0 < Qceiling q)%Z; [|lia]. rewrite Zlt_Qlt.
  eapply Qlt_le_trans; [exact H|]. apply Qle_ceiling.
Qed.

Lemma two_div_pos a : (0 < a)%Q -> (0 < 2 / a)%Q.
Proof. intros H. apply Qlt_shift_div_l; [easy|]. lra. Qed.

Lemma high_slot_ok p start cstep k y a u :
  live p start cstep k y -> (0 < a)%Q -> (u <= 1)%Q -> slot_ok p start cstep k y a (high_slot y u).
Proof.
  intros H Ha Hu. destruct (cdf_search _ _ _ _ _ _ H Hu) as [H1 H2]. unfold high_slot, slot_ok.
  pose proof (Qceiling_pos _ (two_div_pos _ Ha)). split; [nia|]. intros Hm.
  apply H2. right. intros He. rewrite He in Hm. rewrite Z.mod_0_l in Hm by lia. easy.
Qed.

Lemma low_slot_ok p start cstep k y a u :
  live p start cstep k y -> (0 < a)%Q -> (0 <= u)%Q -> (u < 1)%Q -> slot_ok p start cstep k y a (low_slot y a u).
Proof.
  intros H Ha Hu0 Hu1. unfold low_slot, slot_ok.
  set (x := (2 * u / a)%Q). set (f := Qfloor x).
  assert (Hx0 : (0 <= x)%Q) by (apply Qle_shift_div_l; lra).
  assert (Hxa : (x < 2 / a)%Q).
  { unfold x. apply Qlt_shift_div_l; [easy|]. unfold Qdiv. rewrite <- Qmult_assoc.
    rewrite (Qmult_comm _ a), Qmult_inv_r by lra. lra. }
  pose proof (Qfloor_le x) as Hf1. pose proof (Qlt_floor x) as Hf2. fold f in Hf1, Hf2.
  assert (Hf0 : (0 <= f)%Z).
  { change 0%Z with (Qfloor 0). now apply Qfloor_resp_le. }
  assert (Hfc : (f < Qceiling (2 / a))%Z).
  { rewrite Zlt_Qlt. pose proof (Qle_ceiling (2 / a)). lra. }
  assert (Hs1 : (x - inject_Z f <= 1)%Q) by (rewrite inject_Z_plus in Hf2; change (inject_Z 1) with 1%Q in Hf2; lra).
  destruct (cdf_search _ _ _ _ _ _ H Hs1) as [H1 H2].
  destruct (live_profile _ _ _ _ _ H) as (Hc & Hps & Hlen & Hb).
  split; [nia|]. intros Hm. rewrite (Z.mul_comm _ f), Z.mod_add, Z.mod_small in Hm by lia.
  assert (Hne : search_left (y_cdf y) (x - inject_Z f) <> 0) by lia. specialize (H2 (or_intror Hne)).
  destruct (profile_follows_clock _ _ _ _ _ H) as [Hd _].
  match goal with |- (0 < weight_at p ?t)%Q => replace t with
    (bin_start p start cstep (Z.of_nat k + Z.of_nat (search_left (y_cdf y) (x - inject_Z f))) + f * profile_duration p)%Z end.
  - now rewrite weight_at_period.
  - unfold bin_start. rewrite <- Hd. ring.
Qed.

(** ** generate *)

Lemma is_low_iff a : is_low a = true <-> (0 < a /\ a <= 2)%Q.
Proof. unfold is_low. rewrite andb_true_iff, Qltb_lt, Qle_bool_iff. easy. Qed.
Lemma is_high_iff a : is_high a = true <-> (2 < a)%Q.
Proof. unfold is_high. apply Qltb_lt. Qed.

Lemma positive_rows_In obs o : In o (positive_rows obs) <-> In o obs /\ (0 < snd o)%Q.
Proof.
  unfold positive_rows. rewrite in_app_iff, !filter_In, is_low_iff, is_high_iff. split.
  - intros [(H & H1 & H2)|[H H1]]; split; [easy|easy|easy|lra].
  - intros [H H1]. destruct (Qlt_le_dec 2 (snd o)); [now right|now left].
Qed.

(** [cyclic_generate] without its random part: a slot for each positive row *)
Lemma cyclic_generate_inv p start cstep k y obs : live p start cstep k y ->
  exists ds st, length ds = length (positive_rows obs) /\
    Forall2 (fun o d => slot_ok p start cstep k y (snd o) d) (positive_rows obs) ds /\
    cyclic_generate y obs =
      (let! timers := reindex_like (combine (map fst (positive_rows obs)) (map (fun d => Z.max 0 (d - 1)) ds)) obs in
       Ok (timers, mkCyclic (y_config y) st (y_bins y) (y_profile y))).
Proof.
  intros Hlive. unfold cyclic_generate.
  set (low := filter (fun o => is_low (snd o)) obs). set (high := filter (fun o => is_high (snd o)) obs).
  destruct (draws uniform (length low) (y_state y)) as [us st1] eqn:E1.
  destruct (draws beta (length high) st1) as [bs st2] eqn:E2.
  pose proof (draws_length _ _ _ _ _ E1) as L1. pose proof (draws_length _ _ _ _ _ E2) as L2.
  pose proof (draws_Forall (fun u => 0 <= u /\ u < 1)%Q uniform uniform_range _ _ _ _ E1) as F1.
  pose proof (draws_Forall (fun u => 0 <= u /\ u <= 1)%Q beta beta_range _ _ _ _ E2) as F2.
  exists (map (fun '(o, u) => low_slot y (snd o) u) (combine low us) ++ map (high_slot y) bs), st2.
  assert (A1 : forall (low' : list (val * Q)) us', length us' = length low' -> Forall (fun u => 0 <= u /\ u < 1)%Q us' ->
    (forall o, In o low' -> (0 < snd o)%Q) ->
    Forall2 (fun o d => slot_ok p start cstep k y (snd o) d) low' (map (fun '(o, u) => low_slot y (snd o) u) (combine low' us'))).
  { intros low'. induction low' as [|o low' IH]; intros [|u us'] Hl Hf Hp; cbn in Hl; try easy; constructor.
    - inversion Hf as [|? ? [U1 U2] Hf']; subst. apply low_slot_ok; [easy| |easy|easy]. apply Hp. now left.
    - inversion Hf as [|? ? U Hf']; subst. apply IH; [lia|easy|]. intros o' Ho'. apply Hp. now right. }
  assert (A2 : forall (high' : list (val * Q)) bs', length bs' = length high' -> Forall (fun u => 0 <= u /\ u <= 1)%Q bs' ->
    (forall o, In o high' -> (0 < snd o)%Q) ->
    Forall2 (fun o d => slot_ok p start cstep k y (snd o) d) high' (map (high_slot y) bs')).
  { intros high'. induction high' as [|o high' IH]; intros [|u us'] Hl Hf Hp; cbn in Hl; try easy; constructor.
    - inversion Hf as [|? ? [U1 U2] Hf']; subst. apply high_slot_ok; [easy| |easy]. apply Hp. now left.
    - inversion Hf as [|? ? U Hf']; subst. apply IH; [lia|easy|]. intros o' Ho'. apply Hp. now right. }
  assert (P1 : forall o, In o low -> (0 < snd o)%Q).
  { intros o Ho. apply filter_In in Ho as [_ Ho]. now apply is_low_iff in Ho. }
  assert (P2 : forall o, In o high -> (0 < snd o)%Q).
  { intros o Ho. apply filter_In in Ho as [_ Ho]. apply is_high_iff in Ho. lra. }
  specialize (A1 low us L1 F1 P1). specialize (A2 high bs L2 F2 P2).
  assert (HF : Forall2 (fun o d => slot_ok p start cstep k y (snd o) d) (positive_rows obs)
     (map (fun '(o, u) => low_slot y (snd o) u) (combine low us) ++ map (high_slot y) bs)).
  { unfold positive_rows. fold low high. now apply Forall2_app. }
  split; [symmetry; exact (Forall2_length _ _ _ HF)|]. split; [exact HF|].
  assert (Heq : map (fun '(i, d) => (i, Z.max 0 (d - 1)))
     (map (fun '((i, a), u) => (i, low_slot y a u)) (combine low us) ++
      map (fun '((i, _), u) => (i, high_slot y u)) (combine high bs)) =
     combine (map fst (positive_rows obs)) (map (fun d => Z.max 0 (d - 1))
       (map (fun '(o, u) => low_slot y (snd o) u) (combine low us) ++ map (high_slot y) bs))).
  { unfold positive_rows. fold low high. rewrite !map_app.
    assert (HL : length us = length low) by easy. assert (HB : length bs = length high) by easy.
    clearbody low high. clear - HL HB. revert us HL. induction low as [|[i a] low IH]; intros [|u us] HL; cbn in HL; try easy.
    - cbn [combine map app]. revert bs HB. induction high as [|[i a] high IH]; intros [|u bs] HB; cbn in HB; try easy.
      cbn [combine map fst]. f_equal. apply IH. lia.
    - cbn [combine map app fst snd]. f_equal. apply IH. lia. }
  now rewrite Heq.
Qed.

Lemma NoDup_app_intro {A} (l1 l2 : list A) :
  NoDup l1 -> NoDup l2 -> (forall x, In x l1 -> ~ In x l2) -> NoDup (l1 ++ l2).
Proof.
  induction 1 as [|x l1 Hx Hl IH]; cbn; intros H2 Hd; [easy|]. constructor.
  - rewrite in_app_iff. intros [Hc|Hc]; [easy|]. now apply (Hd x (or_introl eq_refl)).
  - apply IH; [easy|]. intros z Hz. apply Hd. now right.
Qed.

Lemma fst_inj_NoDup {A B} (l : list (A * B)) i a b : NoDup (map fst l) -> In (i, a) l -> In (i, b) l -> a = b.
Proof.
  induction l as [|[j c] l IH]; cbn; [easy|]. intros H. inversion H as [|? ? Hx Hl]; subst.
  intros [Ha|Ha] [Hb|Hb].
  - congruence.
  - injection Ha as -> ->. exfalso. apply Hx. now apply (in_map fst) in Hb.
  - injection Hb as -> ->. exfalso. apply Hx. now apply (in_map fst) in Ha.
  - auto.
Qed.

Lemma positive_rows_NoDup obs : NoDup (map fst obs) -> NoDup (map fst (positive_rows obs)).
Proof.
  intros H. unfold positive_rows. rewrite map_app. apply NoDup_app_intro; [now apply NoDup_map_filter..|].
  intros i H1 H2. apply in_map_iff in H1 as ([j a] & Hj & H1). apply in_map_iff in H2 as ([j' b] & Hj' & H2).
  cbn in Hj, Hj'. subst j j'. apply filter_In in H1 as [H1 Ha]. apply filter_In in H2 as [H2 Hb].
  pose proof (fst_inj_NoDup _ _ _ _ H H1 H2). subst b. cbn in *. apply is_low_iff in Ha. apply is_high_iff in Hb. lra.
Qed.

(** A timer value [t] generated for activity [a] at bin [k] *)
Definition timer_of p start cstep k (y : cyclic) (a : Q) (t : option Z) : Prop :=
  match t with
  | None => (a <= 0)%Q
  | Some z => (0 < a)%Q /\ exists d, slot_ok p start cstep k y a d /\ z = Z.max 0 (d - 1)
  end.

Lemma combine_In_Forall2 {A B C} (R : A -> B -> Prop) (g : A -> C) (h : B -> Z) l ds i z :
  Forall2 R l ds -> In (i, z) (combine (map g l) (map h ds)) -> exists o d, In o l /\ R o d /\ i = g o /\ z = h d.
Proof.
  induction 1 as [|o d l ds H1 H2 IH]; cbn; [easy|]. intros [[= <- <-]|H].
  - exists o, d. auto.
  - destruct (IH H) as (o' & d' & ? & ? & ? & ?). exists o', d'. auto.
Qed.

Lemma map_fst_combine_map {A B C D} (g : A -> C) (h : B -> D) l ds : length ds = length l ->
  map fst (combine (map g l) (map h ds)) = map g l.
Proof. intros H. apply map_fst_combine. rewrite !map_length. lia. Qed.

(** C30 *)
Lemma generate_valid p start cstep k y obs : live p start cstep k y -> NoDup (map fst obs) ->
  exists ts y', cyclic_generate y obs = Ok (ts, y') /\
    Forall2 (fun o t => fst t = fst o /\ timer_of p start cstep k y (snd o) (snd t)) obs ts.
Proof.
  intros Hl Hnd. destruct (cyclic_generate_inv _ _ _ _ _ obs Hl) as (ds & st & Hds & HF & ->).
  set (all := combine _ _). assert (Hk : map fst all = map fst (positive_rows obs)) by now apply map_fst_combine_map.
  assert (Hnda : NoDup (map fst all)) by (rewrite Hk; now apply positive_rows_NoDup).
  assert (Hall : forall i z, In (i, z) all -> exists a, In (i, a) obs /\ timer_of p start cstep k y a (Some z)).
  { intros i z Hi. unfold all in Hi. eapply combine_In_Forall2 in Hi as ([j a] & d & Ho & Hs & Hj & Hz); [|exact HF].
    cbn in Hj. subst j. apply positive_rows_In in Ho as [Ho Ha]. exists a. split; [easy|].
    cbn in Hs, Ha |- *. split; [easy|]. exists d. easy. }
  unfold reindex_like. destruct (list_eqb (map fst all) (map fst obs)) eqn:E.
  - apply list_eqb_eq in E. cbn [bind]. eexists _, _. split; [reflexivity|].
    assert (Hgen : forall (obs2 : list (val * Q)) (all2 : list (val * Z)), (forall o, In o obs2 -> In o obs) ->
       map fst all2 = map fst obs2 ->
       (forall i z, In (i, z) all2 -> exists a, In (i, a) obs /\ timer_of p start cstep k y a (Some z)) ->
       Forall2 (fun (o : val * Q) t => fst t = fst o /\ timer_of p start cstep k y (snd o) (snd t)) obs2
         (map (fun kv => (fst kv, Some (snd kv))) all2)); [|now apply Hgen].
    clear E Hall Hnda Hk HF Hds. induction obs2 as [|[i a] obs2 IH]; intros [|[j z] all2] Hsub E Hall2; try discriminate E; constructor.
    + injection E as -> E. cbn [fst snd]. split; [easy|].
      destruct (Hall2 i z (or_introl eq_refl)) as (a' & Ha' & Ht).
      now rewrite (fst_inj_NoDup obs i a a' Hnd (Hsub (i, a) (or_introl eq_refl)) Ha').
    + injection E as -> E. apply IH; [intros; apply Hsub; now right|easy|].
      intros i' z' Hi'. apply Hall2. now right.
  - assert (Hn : nodupb (map fst all) = true) by now rewrite nodupb_NoDup. rewrite Hn. cbn [negb bind].
    eexists _, _. split; [reflexivity|].
    assert (Hgen : forall obs2, (forall o, In o obs2 -> In o obs) ->
       Forall2 (fun (o : val * Q) t => fst t = fst o /\ timer_of p start cstep k y (snd o) (snd t)) obs2
         (map (fun o => (fst o, dget (fst o) all)) obs2)); [|now apply Hgen].
    induction obs2 as [|[i a] obs2 IH]; cbn [map]; intros Hsub; constructor.
    + cbn [fst snd]. split; [easy|]. destruct (dget i all) as [z|] eqn:Eg.
      * apply dget_In in Eg. destruct (Hall _ _ Eg) as (a' & Ha' & Ht).
        now rewrite (fst_inj_NoDup obs i a a' Hnd (Hsub (i, a) (or_introl eq_refl)) Ha').
      * cbn. apply dget_None in Eg. unfold dkeys in Eg. rewrite Hk in Eg.
        destruct (Qlt_le_dec 0 a) as [Ha|]; [|easy]. exfalso. apply Eg.
        apply in_map_iff. exists (i, a). split; [easy|]. apply positive_rows_In. split; [apply Hsub; now left|easy].
    + apply IH. intros o Ho. apply Hsub. now right.
Qed.

(** C32 *)
Lemma generate_fails_iff p start cstep k y obs : live p start cstep k y ->
  forall e, cyclic_generate y obs = Err e <->
   e = ValueError /\ map fst (positive_rows obs) <> map fst obs /\ ~ NoDup (map fst (positive_rows obs)).
Proof.
  intros Hl e. destruct (cyclic_generate_inv _ _ _ _ _ obs Hl) as (ds & st & Hds & HF & ->).
  set (all := combine _ _). assert (Hk : map fst all = map fst (positive_rows obs)) by now apply map_fst_combine_map.
  unfold reindex_like. rewrite Hk. destruct (list_eqb (map fst (positive_rows obs)) (map fst obs)) eqn:E.
  - apply list_eqb_eq in E. cbn. split; easy.
  - assert (map fst (positive_rows obs) <> map fst obs) by (intros Hc; apply list_eqb_eq in Hc; congruence).
    destruct (nodupb _) eqn:En; cbn [negb bind].
    + split; [easy|]. rewrite <- nodupb_NoDup. intros (_ & _ & Hc). congruence.
    + split; [|intros (-> & _); easy]. intros [= <-]. split; [easy|]. split; [easy|].
      rewrite <- nodupb_NoDup. congruence.
Qed.

Lemma filter_all {A} (f : A -> bool) l : (forall x, In x l -> f x = true) -> filter f l = l.
Proof. induction l as [|x l IH]; cbn; intros H; [easy|]. rewrite H by auto. f_equal. auto. Qed.
Lemma filter_none {A} (f : A -> bool) l : (forall x, In x l -> f x = false) -> filter f l = [].
Proof. induction l as [|x l IH]; cbn; intros H; [easy|]. rewrite H by auto. auto. Qed.

Lemma positive_rows_homogeneous obs :
  Forall (fun o => 0 < snd o /\ snd o <= 2)%Q obs \/ Forall (fun o => 2 < snd o)%Q obs ->
  positive_rows obs = obs.
Proof.
  unfold positive_rows. intros [H|H]; rewrite Forall_forall in H.
  - rewrite filter_all, filter_none, app_nil_r; [easy|..]; intros o Ho; specialize (H o Ho).
    + destruct (is_high (snd o)) eqn:E; [|easy]. apply is_high_iff in E. lra.
    + now apply is_low_iff.
  - rewrite filter_none, filter_all; [easy|..]; intros o Ho; specialize (H o Ho).
    + now apply is_high_iff.
    + destruct (is_low (snd o)) eqn:E; [|easy]. apply is_low_iff in E. lra.
Qed.

Lemma generate_duplicates p start cstep k y obs : live p start cstep k y ->
  Forall (fun o => 0 < snd o /\ snd o <= 2)%Q obs \/ Forall (fun o => 2 < snd o)%Q obs ->
  exists ts y', cyclic_generate y obs = Ok (ts, y') /\
    Forall2 (fun o t => fst t = fst o /\ timer_of p start cstep k y (snd o) (snd t)) obs ts.
Proof.
  intros Hl Hh. apply positive_rows_homogeneous in Hh.
  destruct (cyclic_generate_inv _ _ _ _ _ obs Hl) as (ds & st & Hds & HF & ->).
  rewrite Hh in *. unfold reindex_like. rewrite map_fst_combine_map by easy.
  assert (E : list_eqb (map fst obs) (map fst obs) = true) by now apply list_eqb_eq. rewrite E. cbn [bind].
  eexists _, _. split; [reflexivity|].
  assert (Hpos : forall o, In o obs -> (0 < snd o)%Q). { intros o Ho. rewrite <- Hh in Ho. now apply positive_rows_In in Ho. }
  clear - HF Hpos. induction HF as [|o d obs ds H HF IH]; cbn; constructor.
  - cbn. split; [easy|]. split; [apply Hpos; now left|]. exists d. easy.
  - apply IH. intros o' Ho'. apply Hpos. now right.
Qed.

(** ** Clock *)
Lemma timestamps_in_step c size ts c' :
  get_timestamp c size true = Ok (ts, c') ->
  length ts = size /\ c_date c' = c_date c /\ c_step c' = c_step c /\
  Forall (fun t => c_date c <= t < c_date c + c_step c /\ (t - c_date c) mod second = 0)%Z ts.
Proof.
  unfold get_timestamp. intros H. apply bind_ok in H as ([ks st] & H & Hr). injection Hr as <- <-.
  apply choice_spec in H as [Hl Hf]. rewrite map_length. split; [easy|]. split; [easy|]. split; [easy|].
  apply Forall_forall. intros t Ht. apply in_map_iff in Ht as (k & <- & Hk). rewrite Forall_forall in Hf.
  specialize (Hf k Hk).
  assert (Hq : (0 < c_step c)%Z).
  { destruct (Z_lt_le_dec 0 (c_step c)) as [|Hneg]; [easy|]. exfalso.
    assert (Z.quot (c_step c) second <= 0)%Z; [|lia].
    rewrite <- (Z.opp_involutive (c_step c)), Z.quot_opp_l by easy.
    assert (0 <= Z.quot (- c_step c) second)%Z by (apply Z.quot_pos; unfold second; lia). lia. }
  rewrite Z.quot_div_nonneg in Hf by (unfold second; lia).
  pose proof (Z.mul_div_le (c_step c) second ltac:(easy)) as Hm.
  assert (0 <= c_step c / second)%Z by (apply Z.div_pos; unfold second; lia).
  split.
  - change second with 1000000000%Z in *. lia.
  - replace (c_date c + Z.of_nat k * second - c_date c)%Z with (Z.of_nat k * second)%Z by ring.
    now apply Z.mod_mul.
Qed.

Lemma timestamps_fixed c size : get_timestamp c size false = Ok (repeat (c_date c) size, c).
Proof. reflexivity. Qed.

Lemma timestamps_total c size : (second <= c_step c)%Z ->
  exists ts c', get_timestamp c size true = Ok (ts, c').
Proof.
  intros H. unfold get_timestamp, choice.
  assert (Hq : (1 <= Z.quot (c_step c) second)%Z).
  { rewrite Z.quot_div_nonneg by (unfold second in *; lia).
    apply Z.div_le_lower_bound; unfold second in *; lia. }
  destruct (Nat.eqb_spec (Z.to_nat (Z.quot (c_step c) second)) 0); [lia|]. cbn [andb].
  destruct (draws _ _ _). cbn [bind]. eauto.
Qed.

(** how many times a listener is registered *)
Fixpoint count_nat (i : nat) (l : list nat) : nat :=
  match l with [] => 0 | j :: l' => (if i =? j then 1 else 0) + count_nat i l' end.

Lemma count_nat_occ i l : count_nat i l = count_occ Nat.eq_dec l i.
Proof.
  induction l as [|j l IH]; cbn; [easy|]. rewrite IH.
  destruct (Nat.eq_dec j i), (Nat.eqb_spec i j); subst; try easy.
Qed.

Lemma iter_add {A} (f : A -> A) a b x : Nat.iter a f (Nat.iter b f x) = Nat.iter (a + b) f x.
Proof.
  induction a as [|a IH]; [easy|]. change (f (Nat.iter a f (Nat.iter b f x)) = f (Nat.iter (a + b) f x)).
  now rewrite IH.
Qed.

Lemma notify_nth ls : forall gens i,
  nth_error (notify gens ls) i = option_map (Nat.iter (count_nat i ls) tgen_increment) (nth_error gens i).
Proof.
  unfold notify. induction ls as [|j ls IH]; intros gens i; cbn [fold_left count_nat].
  - cbn. now destruct (nth_error gens i).
  - rewrite IH. destruct (nth_error gens j) as [t|] eqn:E.
    + destruct (Nat.eqb_spec i j) as [->|Hn].
      * rewrite nth_error_set_nth_eq by (apply nth_error_Some; congruence). rewrite E. cbn [option_map Nat.add].
        f_equal. change (tgen_increment t) with (Nat.iter 1 tgen_increment t) at 1. rewrite iter_add. f_equal. lia.
      * rewrite nth_error_set_nth_neq by congruence. easy.
    + destruct (Nat.eqb_spec i j) as [->|Hn]; [|easy]. now rewrite E.
Qed.

Lemma clock_ticks c gens k :
  c_date (fst (Nat.iter k clock_increment (c, gens))) = (c_date c + Z.of_nat k * c_step c)%Z /\
  c_listeners (fst (Nat.iter k clock_increment (c, gens))) = c_listeners c /\
  c_step (fst (Nat.iter k clock_increment (c, gens))) = c_step c /\
  length (snd (Nat.iter k clock_increment (c, gens))) = length gens /\
  forall i t, nth_error gens i = Some t ->
    nth_error (snd (Nat.iter k clock_increment (c, gens))) i =
      Some (Nat.iter (k * count_nat i (c_listeners c)) tgen_increment t).
Proof.
  induction k as [|k (IH1 & IH2 & IH3 & IH4 & IH5)].
  - cbn. repeat split; [lia|auto].
  - change (Nat.iter (S k) clock_increment (c, gens)) with (clock_increment (Nat.iter k clock_increment (c, gens))).
    destruct (Nat.iter k clock_increment (c, gens)) as [c1 g1].
    cbn [fst snd clock_increment clock_advance c_date c_step c_listeners] in *.
    rewrite IH2, IH3. split; [lia|]. split; [easy|]. split; [easy|]. split.
    + rewrite <- IH4. unfold notify. generalize (c_listeners c). intros ls. clear. revert g1.
      induction ls as [|j ls IH]; intros g1; cbn; [easy|]. rewrite IH. destruct (nth_error g1 j); [|easy].
      apply set_nth_length.
    + intros i t Hi. rewrite notify_nth, (IH5 _ _ Hi). cbn [option_map]. now rewrite iter_add.
Qed.

(** ** activity *)
Lemma activity_rate p n per : per <> 0%Z -> (~ n == 0)%Q ->
  exists a, activity p n per = Ok a /\ (a * inject_Z per == n * inject_Z (profile_duration p))%Q.
Proof.
  intros Hp Hn. unfold activity. destruct (Z.eqb_spec per 0); [easy|].
  destruct (Qeq_bool n 0) eqn:E; [apply Qeq_bool_iff in E; easy|]. eexists. split; [reflexivity|].
  field. intros Hc. apply Hp. unfold Qeq in Hc. cbn in Hc. lia.
Qed.

(** ** Work hours *)
Definition work_hours_check (s e : Z) : bool :=
  match work_hours_profile s e with
  | Ok p => (length (p_weights p) =? 168) &&
            forallb (fun h => Qeq_bool (nth h (p_weights p) 0%Q) (if in_work_hours s e h then 1 else 0)) (seq 0 168)
            && (p_step p =? hour)%Z && (p_start p =? monday)%Z
  | Err _ => false
  end.

Lemma work_hours_all : forallb (fun s => forallb (fun e => implb (s <=? e) (work_hours_check (Z.of_nat s) (Z.of_nat e))) (seq 0 24)) (seq 0 24) = true.
Proof. vm_compute. reflexivity. Qed.

Lemma work_hours_exact s e : (0 <= s)%Z -> (s <= e)%Z -> (e < 24)%Z ->
  exists p, work_hours_profile s e = Ok p /\ length (p_weights p) = 168 /\ p_step p = hour /\ p_start p = monday /\
    forall h, h < 168 -> (nth h (p_weights p) 0 == if in_work_hours s e h then 1 else 0)%Q.
Proof.
  intros H0 H1 H2. pose proof work_hours_all as H. rewrite forallb_forall in H.
  specialize (H (Z.to_nat s)). rewrite in_seq in H. specialize (H ltac:(lia)). rewrite forallb_forall in H.
  specialize (H (Z.to_nat e)). rewrite in_seq in H. specialize (H ltac:(lia)).
  rewrite !Z2Nat.id in H by lia. destruct (Nat.leb_spec (Z.to_nat s) (Z.to_nat e)); [|lia]. cbn [implb] in H.
  unfold work_hours_check in H. destruct (work_hours_profile s e) as [p|]; [|easy]. exists p.
  rewrite !andb_true_iff in H. destruct H as (((Hl & Hf) & Hs) & Hm). split; [easy|].
  split; [now apply Nat.eqb_eq|]. split; [now apply Z.eqb_eq|]. split; [now apply Z.eqb_eq|].
  intros h Hh. rewrite forallb_forall in Hf. specialize (Hf h). rewrite in_seq in Hf.
  apply Qeq_bool_iff. apply Hf. lia.
Qed.

Lemma work_hours_rejects s e : (s < 0 \/ 24 <= e \/ e < s)%Z -> work_hours_profile s e = Err AssertionError.
Proof.
  intros H. unfold work_hours_profile. destruct (Z.ltb_spec s 0); [easy|].
  destruct (Z.leb_spec 24 e); [easy|]. destruct (Z.ltb_spec e s); [easy|]. lia.
Qed.

(** ** Aligned construction *)
Lemma aligned_construction p now cstep st :
  (0 < cstep)%Z -> (0 < p_step p)%Z -> (cstep | p_step p)%Z ->
  ((cstep | day) /\ (cstep | p_start p) \/ (day | cstep) /\ (day | p_start p))%Z ->
  (cstep | now - p_start p)%Z ->
  Forall (fun w => 0 <= w)%Q (p_weights p) -> (0 < qsum (p_weights p))%Q ->
  exists y, new_cyclic p now cstep st = Ok y /\ option_map fst (hd_error (y_profile y)) = Some now.
Proof.
  intros Hc Hs Hdv Hday Hal Hnn Hq.
  assert (Hne : p_weights p <> []) by (intros Hn; rewrite Hn in Hq; cbn in Hq; lra).
  assert (Hdur : (0 < profile_duration p)%Z).
  { unfold profile_duration. destruct (p_weights p); [easy|]. cbn [length]. lia. }
  destruct (latest_date_before_total (p_start p) now _ Hdur) as (m & d & H & Hd & H1 & H2).
  assert (Hcd : (cstep | profile_duration p)%Z) by (unfold profile_duration; now apply Z.divide_mul_r).
  assert (Hr : resample_ok (p_weights p) (p_step p) cstep d = true).
  { unfold resample_ok. rewrite !andb_true_iff.
    split; [split; [split; [split; [split|]|]|]|].
    - lia.
    - lia.
    - apply Z.eqb_eq. apply Z.mod_divide; [lia|easy].
    - apply Z.eqb_eq. destruct Hday as [[D1 D2]|[D1 D2]].
      + apply Z.mod_divide; [lia|]. rewrite Z.mod_eq by easy. apply Z.divide_sub_r.
        * subst d. apply Z.divide_add_r; [easy|]. now apply Z.divide_mul_r.
        * now apply Z.divide_mul_l.
      + assert ((d mod day)%Z = 0%Z) as ->; [|apply Z.mod_0_l; lia]. apply Z.mod_divide; [easy|].
        subst d. apply Z.divide_add_r; [easy|]. apply Z.divide_mul_r. exact (Z.divide_trans _ _ _ D1 Hcd).
    - apply forallb_forall. intros w Hw. rewrite Forall_forall in Hnn. now apply Qle_bool_iff, Hnn.
    - now apply Qltb_lt. }
  assert (Hx : (cstep | now - d)%Z).
  { subst d. replace (now - (p_start p + m * profile_duration p))%Z with ((now - p_start p) - m * profile_duration p)%Z by ring.
    apply Z.divide_sub_r; [easy|]. now apply Z.divide_mul_r. }
  destruct (new_cyclic_terminates p now cstep st d H Hr) as (y & Hy).
  { destruct Hx as [a Ha]. destruct Hcd as [b Hb].
    assert (a * cstep < b * cstep)%Z by lia. assert (a < b)%Z by nia. assert ((a + 1) * cstep <= b * cstep)%Z by nia. lia. }
  exists y. split; [easy|]. apply new_cyclic_inv in Hy as (base & m' & J & G1 & G2 & G3 & G4 & _ & _ & _ & G7).
  pose proof (grid_pos _ _ _ _ G1) as Hpos. pose proof (grid_duration _ _ _ _ G1) as Hgd.
  destruct (y_profile y) as [|[d0 c0] l] eqn:Ey.
  { destruct G7 as [Hl _]. cbn in Hl. lia. }
  destruct G7 as [_ G7]. destruct (G7 0 d0 c0 eq_refl) as [-> _]. cbn. f_equal.
  rewrite Nat.add_0_r, Nat.mod_small by easy.
  pose proof (bin_start_unique _ _ _ _ _ _ G1 G4) as ->. unfold bin_start.
  replace ((p_start p - now) mod cstep)%Z with 0%Z; [lia|]. symmetry. apply Z.mod_divide; [lia|].
  rewrite <- Z.divide_opp_r. now replace (- (p_start p - now))%Z with (now - p_start p)%Z by ring.
Qed.

Lemma clock_ticks_occ c gens k i t : nth_error gens i = Some t ->
  nth_error (snd (Nat.iter k clock_increment (c, gens))) i =
    Some (Nat.iter (k * count_occ Nat.eq_dec (c_listeners c) i) tgen_increment t).
Proof. rewrite <- count_nat_occ. apply clock_ticks. Qed.

Lemma clock_date_ticks c gens k :
  c_date (fst (Nat.iter k clock_increment (c, gens))) = (c_date c + Z.of_nat k * c_step c)%Z.
Proof. apply clock_ticks. Qed.

Lemma generate_timers p start cstep k y obs : live p start cstep k y -> NoDup (map fst obs) ->
  exists ts y', cyclic_generate y obs = Ok (ts, y') /\ map fst ts = map fst obs /\
    Forall2 (fun o t => match snd t with
                        | None => (snd o <= 0)%Q
                        | Some z => (0 < snd o)%Q /\ (0 <= z < Z.of_nat (y_bins y) * Qceiling (2 / snd o))%Z
                        end) obs ts.
Proof.
  intros Hl Hn. destruct (generate_valid _ _ _ _ _ _ Hl Hn) as (ts & y' & H & HF). exists ts, y'.
  split; [easy|]. split.
  - clear - HF. induction HF as [|o t obs ts [H _] HF IH]; cbn; congruence.
  - clear - HF. induction HF as [|o [i t] obs ts [_ H] HF IH]; constructor; [|easy].
    cbn [snd] in *. destruct t as [z|]; [|easy]. destruct H as [Ha (d & [Hd _] & ->)].
    split; [easy|]. lia.
Qed.

Lemma generate_weight p start cstep k y obs ts y' : live p start cstep k y -> NoDup (map fst obs) ->
  cyclic_generate y obs = Ok (ts, y') ->
  forall i z, In (i, Some z) ts -> (1 <= z)%Z -> ((z + 1) mod Z.of_nat (y_bins y) <> 0)%Z ->
  (0 < weight_at p (bin_start p start cstep (Z.of_nat k + z + 1)))%Q.
Proof.
  intros Hl Hn Hg i z Hi Hz Hm. destruct (generate_valid _ _ _ _ _ _ Hl Hn) as (ts2 & y2 & H & HF).
  rewrite Hg in H. injection H as <- <-. clear - HF Hi Hz Hm.
  induction HF as [|o [j t] obs ts [_ H] HF IH]; [easy|]. destruct Hi as [[= -> ->]|Hi]; [|auto].
  cbn in H. destruct H as [_ (d & [_ Hd] & ->)].
  replace (Z.max 0 (d - 1) + 1)%Z with d in Hm by lia. specialize (Hd Hm).
  now replace (Z.of_nat k + Z.max 0 (d - 1) + 1)%Z with (Z.of_nat k + d)%Z by lia.
Qed.

Lemma generate_duplicates_ok p start cstep k y obs : live p start cstep k y ->
  Forall (fun o => 0 < snd o /\ snd o <= 2)%Q obs \/ Forall (fun o => 2 < snd o)%Q obs ->
  exists ts y', cyclic_generate y obs = Ok (ts, y') /\ map fst ts = map fst obs /\
    Forall (fun t => exists z, snd t = Some z /\ 0 <= z)%Z ts.
Proof.
  intros Hl Hh. destruct (generate_duplicates _ _ _ _ _ _ Hl Hh) as (ts & y' & H & HF). exists ts, y'.
  split; [easy|].
  assert (Hp : forall o, In o obs -> (0 < snd o)%Q).
  { intros o Ho. destruct Hh as [Hh|Hh]; rewrite Forall_forall in Hh; specialize (Hh o Ho); lra. }
  clear H Hh. split.
  - clear - HF. induction HF as [|o t obs ts [H _] HF IH]; cbn; congruence.
  - induction HF as [|o [i t] obs ts [_ H] HF IH]; constructor.
    + cbn [snd] in *. specialize (Hp o (or_introl eq_refl)). destruct t as [z|]; [|cbn in H; lra].
      destruct H as [_ (d & _ & ->)]. eexists. split; [reflexivity|]. lia.
    + apply IH. intros o' Ho'. apply Hp. now right.
Qed.
