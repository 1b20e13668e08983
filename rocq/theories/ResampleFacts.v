(** Resampling and alignment of cyclic timers for any clock step. *)
From Coq Require Import Qround Lqa.
From Verif Require Import Base BaseFacts Rng RngFacts Utils UtilsFacts Relationship Frame Gens Clock SpecClock ClockFacts ClockProps Resample SpecResample.
Local Open Scope nat_scope.

(** ** Padding *)
Lemma profile_data_cons w ws step init : profile_data (w :: ws) step init = (init, Some w) :: profile_data ws step (init + step)%Z.
Proof.
  unfold profile_data. cbn [length seq combine map fst snd app]. f_equal; [f_equal; lia|]. f_equal.
  - rewrite <- seq_shift. assert (H : forall (l : list nat) (v : list Q),
      map (fun kw : nat * Q => ((init + Z.of_nat (fst kw) * step)%Z, Some (snd kw))) (combine (map S l) v)
      = map (fun kw : nat * Q => ((init + step + Z.of_nat (fst kw) * step)%Z, Some (snd kw))) (combine l v)).
    { induction l as [|x l IH]; intros [|y v]; cbn [map combine]; try reflexivity. f_equal; [cbn [fst snd]; f_equal; lia|apply IH]. }
    apply H.
  - f_equal. f_equal. lia.
Qed.

Lemma pad_profile ws step t : (0 < step)%Z -> forall init,
  pad (profile_data ws step init) t =
    if (t <? init)%Z then None
    else if (t <? init + Z.of_nat (length ws) * step)%Z then Some (nth (Z.to_nat ((t - init) / step)) ws 0%Q) else None.
Proof.
  intros Hs. induction ws as [|w ws IH]; intros init.
  - cbn [profile_data length seq combine map app pad]. replace (init + Z.of_nat 0 * step)%Z with init by lia.
    destruct (t <? init)%Z eqn:E; [reflexivity|]. reflexivity.
  - rewrite profile_data_cons. cbn [pad]. destruct (Z.ltb_spec t init) as [H|H]; [reflexivity|].
    assert (E : exists v l, profile_data ws step (init + step) = ((init + step)%Z, v) :: l).
    { destruct ws as [|w' ws']; [|rewrite profile_data_cons; eauto]. unfold profile_data. cbn [length seq combine map app].
      eexists _, _. f_equal. f_equal. lia. }
    specialize (IH (init + step)%Z). destruct E as (v & l & E). rewrite E in *.
    replace (init + Z.of_nat (length (w :: ws)) * step)%Z with (init + step + Z.of_nat (length ws) * step)%Z by (cbn [length]; lia).
    destruct (Z.leb_spec (init + step) t) as [H1|H1].
    + rewrite IH. destruct (Z.ltb_spec t (init + step)); [lia|].
      destruct (t <? init + step + Z.of_nat (length ws) * step)%Z; [|reflexivity]. f_equal.
      replace (t - init)%Z with (t - (init + step) + 1 * step)%Z by lia. rewrite Z.div_add by lia.
      rewrite Z2Nat.inj_add by (try apply Z.div_pos; lia). replace (Z.to_nat 1) with 1 by reflexivity. rewrite Nat.add_1_r. reflexivity.
    + destruct (Z.ltb_spec t (init + step + Z.of_nat (length ws) * step)); [|nia]. rewrite Z.div_small by lia. reflexivity.
Qed.

(** ** Resampling *)
Lemma grid_start_le first cstep : (0 < cstep)%Z -> (grid_start first cstep <= first < grid_start first cstep + cstep)%Z.
Proof. intros H. unfold grid_start. pose proof (Z.mod_pos_bound (first mod day) cstep H). lia. Qed.

Lemma grid_length first last cstep : (0 < cstep)%Z -> (first <= last)%Z -> length (grid first last cstep) = S (bins_of first last cstep).
Proof.
  intros Hc Hl. unfold grid, bins_of. rewrite map_length, seq_length. pose proof (grid_start_le first cstep Hc).
  rewrite Z2Nat.inj_add; [rewrite Nat.add_1_r; reflexivity|apply Z.div_pos; lia|lia].
Qed.

Lemma removelast_map_seq {A} (f : nat -> A) n : removelast (map f (seq 0 (S n))) = map f (seq 0 n).
Proof. rewrite seq_S, map_app. cbn [map]. apply removelast_last. Qed.

Lemma profile_data_length ws step init : length (profile_data ws step init) = S (length ws).
Proof. unfold profile_data. rewrite app_length, map_length, combine_length, seq_length. cbn. lia. Qed.

Lemma combine_map_seq {A B} (f : nat -> A) (l : list B) d : combine (map f (seq 0 (length l))) l = map (fun k => (f k, nth k l d)) (seq 0 (length l)).
Proof.
  revert f. induction l as [|x l IH]; intros f; [reflexivity|]. cbn [length seq map combine nth]. f_equal.
  rewrite <- seq_shift, !map_map. exact (IH (fun k => f (S k))).
Qed.

(** the values of [profile_data] *)
Lemma profile_data_snd ws step init : map snd (profile_data ws step init) = map Some ws ++ [None].
Proof.
  revert init. induction ws as [|w ws IH]; intros init; [reflexivity|]. rewrite profile_data_cons. cbn [map snd app]. now rewrite IH.
Qed.

Lemma equal_rows ws step init (f : nat -> Z) :
  removelast (combine (map f (seq 0 (S (length ws)))) (map snd (profile_data ws step init))) = map (fun k => (f k, Some (nth k ws 0%Q))) (seq 0 (length ws)).
Proof.
  rewrite profile_data_snd.
  assert (L : length (map (@Some Q) ws ++ [None]) = S (length ws)) by (rewrite app_length, map_length; cbn [length]; lia).
  rewrite <- L. etransitivity; [apply f_equal; exact (combine_map_seq f (map (@Some Q) ws ++ [None]) None)|]. rewrite L, removelast_map_seq.
  apply map_ext_in. intros k Hk. apply in_seq in Hk. f_equal.
  rewrite app_nth1 by (rewrite map_length; lia). rewrite (nth_indep _ None (Some 0%Q)) by (rewrite map_length; lia). apply map_nth.
Qed.

Lemma labels_removelast first last cstep (g : Z -> fval) : (0 < cstep)%Z -> (first <= last)%Z ->
  removelast (map (fun t => (t, g t)) (grid first last cstep)) =
  map (fun k => (grid_start first cstep + Z.of_nat k * cstep, g (grid_start first cstep + Z.of_nat k * cstep))%Z) (seq 0 (bins_of first last cstep)).
Proof.
  intros Hc Hl. pose proof (grid_length first last cstep Hc Hl) as L. unfold grid in *. rewrite map_length, seq_length in L. rewrite L, map_map.
  apply removelast_map_seq.
Qed.

Lemma equal_sampling_cases n step cstep first last : (0 < cstep)%Z -> (first <= last)%Z ->
  equal_sampling n step cstep first last = Ok false \/
  equal_sampling n step cstep first last = Ok true /\ step = cstep /\ n = S (bins_of first last cstep) \/
  equal_sampling n step cstep first last = Err Unmodelled /\ step = cstep /\ (day | step)%Z /\ step <> day /\ grid_start first cstep <> first.
Proof.
  intros Hc Hl. unfold equal_sampling. rewrite (grid_length _ _ _ Hc Hl).
  destruct (Z.eqb_spec step cstep) as [E|E]; [|auto]. destruct (n <? 3); [auto|]. destruct (Nat.eqb_spec n (S (bins_of first last cstep))) as [En|]; [|auto].
  cbn [negb orb]. destruct (Z.eqb_spec (step mod day) 0) as [H1|H1]; cbn [andb]; [|auto].
  destruct (Z.eqb_spec step day) as [H2|H2]; cbn [negb]; [auto|].
  destruct (Z.eqb_spec (grid_start first cstep) first) as [H3|H3]; [auto|]. right. right. split; [reflexivity|]. split; [exact E|].
  split; [|auto]. apply Z.mod_divide; [unfold day, hour, second; lia|exact H1].
Qed.

Lemma resampled_aligned ws step cstep init : (0 < step)%Z -> (0 < cstep)%Z -> grid_start init cstep = init ->
  resampled ws step cstep init =
    Ok (map (fun k => (init + Z.of_nat k * cstep, Some (nth (Z.to_nat (Z.of_nat k * cstep / step)) ws 0%Q))%Z)
            (seq 0 (Z.to_nat (Z.of_nat (length ws) * step / cstep)))).
Proof.
  intros Hs Hc Ha. unfold resampled. set (last := (init + Z.of_nat (length ws) * step)%Z).
  assert (Hl : (init <= last)%Z) by (unfold last; nia).
  assert (B : bins_of init last cstep = Z.to_nat (Z.of_nat (length ws) * step / cstep)).
  { unfold bins_of. rewrite Ha. unfold last. f_equal. f_equal. lia. }
  destruct (equal_sampling_cases (length (profile_data ws step init)) step cstep init last Hc Hl) as [E|[(E & E1 & E2)|(_ & _ & _ & _ & E)]]; [| |contradiction].
  - rewrite E. cbn [bind]. f_equal. rewrite labels_removelast by assumption. rewrite Ha, B. apply map_ext_in. intros k Hk. apply in_seq in Hk.
    f_equal. rewrite pad_profile by exact Hs. destruct (Z.ltb_spec (init + Z.of_nat k * cstep) init); [nia|].
    fold last. destruct (Z.ltb_spec (init + Z.of_nat k * cstep) last) as [_|H'].
    + do 2 f_equal. f_equal. f_equal. lia.
    + exfalso. assert (Hk' : (Z.of_nat k < Z.of_nat (length ws) * step / cstep)%Z) by lia. unfold last in H'.
      assert ((Z.of_nat k + 1) * cstep <= Z.of_nat (length ws) * step)%Z; [|lia].
      pose proof (Z.mul_div_le (Z.of_nat (length ws) * step) cstep Hc). nia.
  - rewrite E. cbn [bind]. f_equal. subst cstep. rewrite profile_data_length in E2.
    assert (E3 : bins_of init last step = length ws) by lia.
    assert (G : grid init last step = map (fun k => (init + Z.of_nat k * step)%Z) (seq 0 (S (length ws)))).
    { pose proof (grid_length init last step Hc Hl) as L. unfold grid in *. rewrite map_length, seq_length in L. rewrite L, E3, Ha. reflexivity. }
    rewrite G, equal_rows, <- B, E3. apply map_ext_in. intros k Hk. rewrite Z.div_mul by lia. now rewrite Nat2Z.id.
Qed.

(** off the grid: a NaN first, unless the steps are equal *)
Lemma resampled_shifted ws step cstep init ser : (0 < step)%Z -> (0 < cstep)%Z -> grid_start init cstep <> init ->
  resampled ws step cstep init = Ok ser ->
  let start := grid_start init cstep in
  let n := bins_of init (init + Z.of_nat (length ws) * step) cstep in
  map fst ser = map (fun k => start + Z.of_nat k * cstep)%Z (seq 0 n) /\
  (n <> 0 -> step <> cstep \/ length ws <= 1 -> exists v, nth_error ser 0 = Some v /\ snd v = None) /\
  (step = cstep -> 2 <= length ws -> ser = map (fun k => (start + Z.of_nat k * cstep, Some (nth k ws 0%Q))%Z) (seq 0 n) /\ n = length ws).
Proof.
  intros Hs Hc Ha H start n. unfold resampled in H. set (last := (init + Z.of_nat (length ws) * step)%Z) in *.
  assert (Hl : (init <= last)%Z) by (unfold last; nia). pose proof (grid_start_le init cstep Hc) as Hg. fold start in Hg, Ha.
  assert (EB : step = cstep -> n = length ws).
  { intros ->. unfold n, bins_of. fold start last. unfold last.
    replace (init + Z.of_nat (length ws) * cstep - start)%Z with (init - start + Z.of_nat (length ws) * cstep)%Z by lia.
    rewrite Z.div_add by lia. rewrite Z.div_small by lia. lia. }
  destruct (equal_sampling_cases (length (profile_data ws step init)) step cstep init last Hc Hl) as [E|[(E & E1 & E2)|(E & _)]].
  - rewrite E in H. cbn [bind] in H. injection H as <-. rewrite labels_removelast by assumption. fold start. fold n. split; [|split].
    + rewrite map_map. reflexivity.
    + intros Hn _. destruct n as [|n']; [lia|]. cbn [seq map nth_error]. eexists. split; [reflexivity|]. cbn [snd].
      rewrite pad_profile by exact Hs. destruct (Z.ltb_spec (start + Z.of_nat 0 * cstep) init); [reflexivity|lia].
    + intros E1 H2. exfalso. specialize (EB E1). unfold equal_sampling in E. rewrite (grid_length _ _ _ Hc Hl) in E. fold n in E.
      rewrite profile_data_length, EB, E1, Z.eqb_refl, Nat.eqb_refl in E. destruct (Nat.ltb_spec (S (length ws)) 3); [lia|]. cbn [negb orb] in E.
      destruct ((cstep mod day =? 0)%Z && negb (cstep =? day)%Z); [|discriminate].
      destruct (Z.eqb_spec (grid_start init cstep) init); [contradiction|discriminate].
  - rewrite E in H. cbn [bind] in H. injection H as <-. rewrite profile_data_length in E2. specialize (EB E1).
    assert (G : grid init last cstep = map (fun k => (start + Z.of_nat k * cstep)%Z) (seq 0 (S (length ws)))).
    { pose proof (grid_length init last cstep Hc Hl) as L. unfold grid in *. rewrite map_length, seq_length in L. rewrite L. fold n. rewrite EB. reflexivity. }
    assert (X : removelast (combine (grid init last cstep) (map snd (profile_data ws step init))) =
                map (fun k => (start + Z.of_nat k * cstep, Some (nth k ws 0%Q))%Z) (seq 0 n)).
    { rewrite G, equal_rows, EB. reflexivity. }
    rewrite X. split; [rewrite map_map; reflexivity|]. split; [|auto].
    intros _ [E3|E3]; [contradiction|]. exfalso.
    unfold equal_sampling in E. rewrite E1, Z.eqb_refl, profile_data_length in E. destruct (Nat.ltb_spec (S (length ws)) 3); [|lia]. discriminate.
  - rewrite E in H. discriminate.
Qed.
