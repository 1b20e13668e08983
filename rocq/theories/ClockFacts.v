(** Facts about cyclic timer profiles. *)
From Coq Require Import Qround Lqa.
From Verif Require Import Base BaseFacts Rng RngFacts Utils UtilsFacts Relationship Frame Gens GensProps Clock SpecClock.

(** ** Sums *)

Lemma qsum_app l1 l2 : (qsum (l1 ++ l2) == qsum l1 + qsum l2)%Q.
Proof. induction l1 as [|x l1 IH]; cbn; [ring|rewrite IH; ring]. Qed.

Fixpoint pre (W : nat -> Q) (m : nat) : Q :=
  match m with 0 => 0%Q | S m' => (pre W m' + W m')%Q end.

Lemma qsum_window W a m : (qsum (map W (seq a m)) == pre W (a + m) - pre W a)%Q.
Proof.
  induction m as [|m IH].
  - cbn. rewrite Nat.add_0_r. ring.
  - rewrite seq_S, map_app, qsum_app, IH. cbn [map qsum].
    replace (a + S m) with (S (a + m)) by lia. cbn [pre]. ring.
Qed.

Lemma pre_mono W a b : (forall i, 0 <= W i)%Q -> a <= b -> (pre W a <= pre W b)%Q.
Proof.
  intros HW. induction 1 as [|b H IH]; [apply Qle_refl|]. cbn [pre].
  specialize (HW b). lra.
Qed.

Lemma pre_period W n : (forall i, W (i + n) = W i) -> forall j,
  (pre W (j + n) == pre W j + pre W n)%Q.
Proof.
  intros HW. induction j as [|j IH]; [cbn; ring|].
  cbn [pre Nat.add]. rewrite IH, HW. ring.
Qed.

Lemma cumsum_nth l : forall acc i c,
  nth_error (cumsum acc l) i = Some c -> (c == acc + qsum (firstn (S i) l))%Q.
Proof.
  induction l as [|x l IH]; intros acc i c; [now destruct i|].
  destruct i as [|i]; cbn [cumsum nth_error].
  - intros [= <-]. cbn. ring.
  - intros H. apply IH in H. rewrite H. cbn [firstn qsum]. ring.
Qed.

Lemma cumsum_length l : forall acc, length (cumsum acc l) = length l.
Proof. induction l; intros; cbn; [easy|]. now rewrite IHl. Qed.

Lemma qsum_map_div l s : (qsum (map (fun w => w / s)%Q l) == qsum l / s)%Q.
Proof. induction l as [|x l IH]; cbn; [unfold Qdiv; ring|]. rewrite IH. unfold Qdiv. ring. Qed.

Lemma firstn_map {A B} (f : A -> B) n l : firstn n (map f l) = map f (firstn n l).
Proof. revert n; induction l as [|x l IH]; intros [|n]; cbn; [easy..|]. now rewrite IH. Qed.

Lemma firstn_seq a k n : k <= n -> firstn k (seq a n) = seq a k.
Proof.
  revert a n; induction k as [|k IH]; intros a n H; [easy|].
  destruct n as [|n]; [lia|]. cbn. rewrite IH; [easy|lia].
Qed.

(** ** Rotation *)

Lemma rotate_cons d0 c0 t :
  rotate_profile ((d0, c0) :: t) = map (fun '(d, c) => (d, (c - c0)%Q)) t ++ [(d0, 1%Q)].
Proof.
  unfold rotate_profile. cbn [map skipn firstn]. unfold set_last_one.
  rewrite rev_app_distr. cbn [rev app]. now rewrite rev_involutive.
Qed.

Lemma rotate_length l : length (rotate_profile l) = length l.
Proof.
  destruct l as [|[d0 c0] t]; [easy|]. rewrite rotate_cons, app_length, map_length. cbn. lia.
Qed.

(** The profile of [n] bins, rotated by [j]. *)
Definition rotated (W : nat -> Q) (n : nat) (base cstep : Z) (j : nat) (l : list (Z * Q)) : Prop :=
  length l = n /\
  forall i d c, nth_error l i = Some (d, c) ->
    d = (base + Z.of_nat ((j + i) mod n) * cstep)%Z /\
    (c * pre W n == pre W (j + i + 1) - pre W j)%Q.

Lemma rotated_step W n base cstep j l :
  (forall i, W (i + n) = W i) -> rotated W n base cstep j l -> l <> [] ->
  rotated W n base cstep (S j) (rotate_profile l).
Proof.
  intros HW [Hn H] Hl. split; [now rewrite rotate_length|].
  destruct l as [|[d0 c0] t]; [easy|]. clear Hl. rewrite rotate_cons.
  destruct (H 0 d0 c0 eq_refl) as [Hd0 Hc0]. cbn [length] in Hn.
  intros i d c Hi. destruct (Nat.lt_ge_cases i (length t)) as [Hlt|Hge].
  - rewrite nth_error_app1 in Hi by now rewrite map_length.
    rewrite nth_error_map in Hi. destruct (nth_error t i) as [[d' c']|] eqn:E; [|easy].
    injection Hi as <- <-. destruct (H (S i) d' c' E) as [Hd Hc]. split.
    + rewrite Hd. now replace (j + S i) with (S j + i) by lia.
    + replace (S j + i + 1) with (j + S i + 1) by lia.
      transitivity (c' * pre W n - c0 * pre W n)%Q; [ring|]. rewrite Hc, Hc0.
      replace (j + 0 + 1) with (S j) by lia. ring.
  - assert (i = length t).
    { pose proof (proj1 (nth_error_Some (map (fun '(d, c) => (d, (c - c0)%Q)) t ++ [(d0, 1%Q)]) i)) as Hs.
      rewrite Hi in Hs. specialize (Hs ltac:(easy)). rewrite app_length, map_length in Hs.
      cbn in Hs. lia. }
    subst i. rewrite nth_error_app2 in Hi by (rewrite map_length; lia).
    rewrite map_length, Nat.sub_diag in Hi. injection Hi as <- <-. split.
    + rewrite Hd0. replace (S j + length t) with (j + 0 + 1 * n) by lia.
      now rewrite Nat.mod_add by lia.
    + replace (S j + length t + 1) with (S j + n) by lia. rewrite pre_period by easy. ring.
Qed.

Lemma rotated_nonempty W n base cstep j l : 0 < n -> rotated W n base cstep j l -> l <> [].
Proof. intros Hn [H _] ->. cbn in H. lia. Qed.

Lemma before_now_rotated W n base cstep j l now :
  0 < n -> rotated W n base cstep j l ->
  before_now now l = (base + Z.of_nat (j mod n) * cstep <? now)%Z.
Proof.
  intros Hn [Hl H]. destruct l as [|[d c] l]; [cbn in Hl; lia|]. cbn [before_now].
  destruct (H 0 d c eq_refl) as [-> _]. now rewrite Nat.add_0_r.
Qed.

(** the alignment loop stops at the first bin that starts at [now] or later *)
Lemma align_ok W n base cstep now J :
  (forall i, W (i + n) = W i) -> J < n ->
  (now <= base + Z.of_nat J * cstep)%Z ->
  (forall i, i < J -> (base + Z.of_nat i * cstep < now)%Z) ->
  forall fuel j l, j <= J -> J - j <= fuel -> rotated W n base cstep j l ->
  exists l', while_fuel fuel (before_now now) rotate_profile l = Ok l' /\ rotated W n base cstep J l'.
Proof.
  intros HW HJ Hge Hlt. induction fuel as [|fuel IH]; intros j l Hj Hf Hr.
  - assert (j = J) by lia. subst j. exists l. split; [|easy].
    cbn [while_fuel]. rewrite (before_now_rotated W n base cstep J l now ltac:(lia) Hr).
    rewrite Nat.mod_small by easy. destruct (Z.ltb_spec (base + Z.of_nat J * cstep) now); [lia|easy].
  - cbn [while_fuel]. rewrite (before_now_rotated W n base cstep j l now ltac:(lia) Hr).
    rewrite Nat.mod_small by lia. destruct (Z.ltb_spec (base + Z.of_nat j * cstep) now).
    + assert (j <> J) by (intros ->; lia). apply (IH (S j)); [lia|lia|].
      apply rotated_step; [easy|easy|]. apply (rotated_nonempty W n base cstep j); [lia|easy].
    + assert (j = J). { destruct (Nat.eq_dec j J); [easy|]. specialize (Hlt j ltac:(lia)). lia. }
      subst j. eauto.
Qed.

Lemma align_diverges W n base cstep now :
  (forall i, W (i + n) = W i) -> 0 < n ->
  (forall i, i < n -> (base + Z.of_nat i * cstep < now)%Z) ->
  forall l, rotated W n base cstep 0 l -> forall fuel,
  while_fuel fuel (before_now now) rotate_profile l = Err Diverges.
Proof.
  intros HW Hn Hlt l Hl fuel.
  apply (while_fuel_diverges (fun l => exists j, rotated W n base cstep j l)).
  - intros l' [j Hj]. rewrite (before_now_rotated W n base cstep j l' now ltac:(lia) Hj).
    apply Z.ltb_lt. apply Hlt. apply Nat.mod_upper_bound. lia.
  - intros l' [j Hj]. exists (S j). apply rotated_step; [easy..|]. now apply (rotated_nonempty W n base cstep j).
  - eauto.
Qed.

(** ** The initial profile *)

Lemma upsample_length ws k : length (upsample ws k) = length ws * k.
Proof.
  unfold upsample. induction ws as [|w ws IH]; cbn; [easy|].
  rewrite app_length, repeat_length, IH. lia.
Qed.

Lemma upsample_nth ws k i : 0 < k -> nth i (upsample ws k) 0%Q = nth (i / k) ws 0%Q.
Proof.
  intros Hk. revert i; induction ws as [|w ws IH]; intros i.
  - cbn. destruct i; destruct (_ / k); easy.
  - unfold upsample. cbn [flat_map]. destruct (Nat.lt_ge_cases i k) as [H|H].
    + rewrite app_nth1 by now rewrite repeat_length. rewrite Nat.div_small by easy.
      cbn [nth]. clear IH. revert i H. induction k as [|k IHk]; [lia|]. intros [|i] H; [easy|]. cbn. destruct k; [lia|]. apply IHk; lia.
    + rewrite app_nth2 by now rewrite repeat_length. rewrite repeat_length.
      fold (upsample ws k). rewrite IH.
      replace i with ((i - k) + 1 * k) at 2 by lia. rewrite Nat.div_add by lia.
      rewrite Nat.add_1_r. easy.
Qed.

Section Grid.
  Variables (p : timer_profile) (cstep base m : Z).
  Hypotheses (Hc : (0 < cstep)%Z) (Hs : (0 < p_step p)%Z) (Hdiv : (p_step p mod cstep = 0)%Z)
             (Hbase : base = (p_start p + m * profile_duration p)%Z) (Hlen : p_weights p <> []).

  Let times := Z.to_nat (p_step p / cstep).
  Let n := length (p_weights p) * times.
  Let W i := weight_at p (base + Z.of_nat i * cstep)%Z.

  Lemma times_step : p_step p = (Z.of_nat times * cstep)%Z.
  Proof.
    unfold times. rewrite Z2Nat.id by (apply Z.div_pos; lia).
    rewrite Z.mul_comm. apply Z.div_exact; lia.
  Qed.

  Lemma times_pos : 0 < times.
  Proof. pose proof times_step. nia. Qed.

  Lemma len_pos : 0 < length (p_weights p).
  Proof. destruct (p_weights p); [easy|cbn; lia]. Qed.

  Lemma bins_pos : 0 < n.
  Proof. unfold n. pose proof times_pos. pose proof len_pos. nia. Qed.

  Lemma grid_weight i : W i = nth ((i / times) mod length (p_weights p)) (p_weights p) 0%Q.
  Proof.
    unfold W, weight_at. f_equal.
    pose proof times_pos as Ht. pose proof len_pos as Hl. pose proof times_step as Hts.
    replace ((base + Z.of_nat i * cstep - p_start p) / p_step p)%Z
      with (Z.of_nat (i / times) + m * Z.of_nat (length (p_weights p)))%Z.
    2:{ rewrite Hbase. unfold profile_duration.
        replace (p_start p + m * (Z.of_nat (length (p_weights p)) * p_step p) + Z.of_nat i * cstep - p_start p)%Z
          with (Z.of_nat i * cstep + (m * Z.of_nat (length (p_weights p))) * p_step p)%Z by ring.
        rewrite Z.div_add by lia. f_equal. rewrite Hts at 1.
        rewrite Z.div_mul_cancel_r by lia. now rewrite Nat2Z.inj_div. }
    rewrite Z.mod_add by lia. rewrite <- Nat2Z.inj_mod. apply Nat2Z.id.
  Qed.

  Lemma grid_periodic i : W (i + n) = W i.
  Proof.
    rewrite !grid_weight. unfold n. pose proof times_pos. pose proof len_pos.
    rewrite Nat.div_add by lia.
    replace (i / times + length (p_weights p)) with (i / times + 1 * length (p_weights p)) by lia.
    now rewrite Nat.mod_add by lia.
  Qed.

  Lemma upsample_grid : upsample (p_weights p) times = map W (seq 0 n).
  Proof.
    apply (nth_ext _ _ 0%Q 0%Q).
    - rewrite upsample_length, map_length, seq_length. reflexivity.
    - intros i Hi. rewrite upsample_length in Hi. fold n in Hi. pose proof times_pos as Ht.
      rewrite (nth_indep (map W (seq 0 n)) 0%Q (W 0)) by now rewrite map_length, seq_length.
      rewrite map_nth, seq_nth by easy. cbn [Nat.add]. rewrite grid_weight.
      rewrite upsample_nth by easy. rewrite Nat.mod_small; [easy|].
      apply Nat.div_lt_upper_bound; [lia|]. unfold n in Hi. nia.
  Qed.

  Lemma qsum_upsample ws k : (qsum (upsample ws k) == qsum ws * inject_Z (Z.of_nat k))%Q.
  Proof.
    unfold upsample. induction ws as [|w ws IH]; cbn [flat_map qsum]; [ring|].
    rewrite qsum_app, IH. assert (H : (qsum (repeat w k) == w * inject_Z (Z.of_nat k))%Q).
    { clear. induction k as [|k IH]; [cbn; ring|]. cbn [repeat qsum]. rewrite IH, Nat2Z.inj_succ.
      unfold Z.succ. rewrite inject_Z_plus. ring. }
    rewrite H. ring.
  Qed.

  Lemma pre_total : (pre W n == qsum (p_weights p) * inject_Z (Z.of_nat times))%Q.
  Proof.
    rewrite <- qsum_upsample, upsample_grid, qsum_window. cbn [pre Nat.add]. ring.
  Qed.

  Lemma pre_total_pos : (0 < qsum (p_weights p))%Q -> (0 < pre W n)%Q.
  Proof.
    intros H. rewrite pre_total. apply Qmult_lt_0_compat; [easy|].
    replace 0%Q with (inject_Z 0) by easy. rewrite <- Zlt_Qlt. pose proof times_pos. lia.
  Qed.

  Lemma grid_nonneg : Forall (fun w => 0 <= w)%Q (p_weights p) -> forall i, (0 <= W i)%Q.
  Proof.
    intros H i. rewrite grid_weight. destruct (nth_in_or_default ((i / times) mod length (p_weights p)) (p_weights p) 0%Q) as [Hin| ->].
    - rewrite Forall_forall in H. now apply H.
    - apply Qle_refl.
  Qed.

  Lemma initial_rotated : (0 < qsum (p_weights p))%Q ->
    rotated W n base cstep 0 (initial_profile (p_weights p) (p_step p) cstep base).
  Proof.
    intros Hq. unfold initial_profile. fold times. rewrite upsample_grid.
    rewrite map_length, seq_length. split.
    - rewrite combine_length, map_length, seq_length, cumsum_length, !map_length, seq_length. lia.
    - intros i d c Hi.
      assert (Hin : i < n).
      { assert (Hx : nth_error (combine (map (fun k => (base + Z.of_nat k * cstep)%Z) (seq 0 n))
           (cumsum 0 (map (fun w => (w / qsum (map W (seq 0 n)))%Q) (map W (seq 0 n))))) i <> None) by congruence.
        apply nth_error_Some in Hx. rewrite combine_length, map_length, seq_length in Hx. lia. }
      assert (Hfst := map_nth_error fst _ _ Hi). assert (Hsnd := map_nth_error snd _ _ Hi).
      cbn [fst snd] in Hfst, Hsnd.
      rewrite map_fst_combine in Hfst by now rewrite cumsum_length, !map_length, !seq_length.
      rewrite map_snd_combine in Hsnd by now rewrite cumsum_length, !map_length, !seq_length.
      split.
      + rewrite nth_error_map, (nth_error_nth' _ 0), seq_nth in Hfst by now rewrite ?seq_length.
        cbn in Hfst. injection Hfst as <-. cbn [Nat.add]. now rewrite Nat.mod_small by easy.
      + apply cumsum_nth in Hsnd. rewrite Hsnd, firstn_map, qsum_map_div, firstn_map.
        rewrite firstn_seq by lia. rewrite !qsum_window. cbn [pre Nat.add].
        replace (i + 1) with (S i) by lia. pose proof (pre_total_pos Hq) as Hp.
        clearbody W n. cbn [pre]. field. lra.
  Qed.
End Grid.

(** ** Construction *)

Definition grid_W (p : timer_profile) (base cstep : Z) (i : nat) : Q :=
  weight_at p (base + Z.of_nat i * cstep)%Z.
Definition grid_n (p : timer_profile) (cstep : Z) : nat :=
  length (p_weights p) * Z.to_nat (p_step p / cstep).

Record valid_grid (p : timer_profile) (cstep base m : Z) : Prop := mkGrid {
  vg_c : (0 < cstep)%Z;
  vg_s : (0 < p_step p)%Z;
  vg_div : (p_step p mod cstep = 0)%Z;
  vg_base : base = (p_start p + m * profile_duration p)%Z;
  vg_len : p_weights p <> [];
  vg_nonneg : Forall (fun w => 0 <= w)%Q (p_weights p);
  vg_sum : (0 < qsum (p_weights p))%Q
}.

Lemma resample_ok_grid p cstep base m :
  base = (p_start p + m * profile_duration p)%Z ->
  resample_ok (p_weights p) (p_step p) cstep base = true ->
  valid_grid p cstep base m.
Proof.
  intros Hb. unfold resample_ok. rewrite !andb_true_iff.
  intros (((((H1 & H2) & H3) & H4) & H5) & H6).
  apply Qltb_lt in H6. constructor; try lia; try easy.
  - intros Hn. rewrite Hn in H6. cbn in H6. lra.
  - rewrite forallb_forall in H5. apply Forall_forall. intros w Hw.
    now apply Qle_bool_iff, H5.
Qed.

Lemma initial_length p cstep base m : valid_grid p cstep base m ->
  length (initial_profile (p_weights p) (p_step p) cstep base) = grid_n p cstep.
Proof.
  intros [Hc Hs Hd Hb Hl Hn Hq]. now destruct (initial_rotated p cstep base m Hc Hs Hd Hb Hl Hq) as [H _].
Qed.

Lemma first_bin cstep base now n :
  (0 < cstep)%Z -> (base <= now)%Z -> (now < base + Z.of_nat n * cstep)%Z ->
  exists J, J <= n /\ (now <= base + Z.of_nat J * cstep)%Z /\ (base + Z.of_nat J * cstep < now + cstep)%Z /\
            (forall i, i < J -> (base + Z.of_nat i * cstep < now)%Z).
Proof.
  intros Hc Hb Hn. pose (j := ((now - base + cstep - 1) / cstep)%Z).
  assert (Hj : (0 <= j)%Z) by (apply Z.div_pos; lia).
  pose proof (Z.div_mod (now - base + cstep - 1) cstep ltac:(lia)) as Hdm. fold j in Hdm.
  pose proof (Z.mod_pos_bound (now - base + cstep - 1) cstep Hc) as Hm.
  exists (Z.to_nat j). rewrite Z2Nat.id by easy. repeat split; [nia|nia|nia|].
  intros i Hi. assert (Z.of_nat i <= j - 1)%Z by lia. nia.
Qed.

Lemma new_cyclic_cases fuel p now cstep st :
  (exists e, latest_date_before (p_start p) now (profile_duration p) = Err e /\
             new_cyclic_fuel fuel p now cstep st = Err e) \/
  new_cyclic_fuel fuel p now cstep st = Err Unmodelled \/
  exists base m J l, latest_date_before (p_start p) now (profile_duration p) = Ok base /\
    valid_grid p cstep base m /\ (base <= now < base + profile_duration p)%Z /\
    l = initial_profile (p_weights p) (p_step p) cstep base /\
    rotated (grid_W p base cstep) (grid_n p cstep) base cstep 0 l /\
    J <= grid_n p cstep /\ (now <= base + Z.of_nat J * cstep < now + cstep)%Z /\
    (forall i, i < J -> (base + Z.of_nat i * cstep < now)%Z) /\
    new_cyclic_fuel fuel p now cstep st =
      (let! aligned := while_fuel fuel (before_now now) rotate_profile l in
       Ok (mkCyclic p st (grid_n p cstep) aligned)).
Proof.
  unfold new_cyclic_fuel. destruct (latest_date_before _ _ _) as [base|e] eqn:E; [|left; eauto].
  right. cbn [bind]. destruct (resample_ok _ _ _ _) eqn:Er; [|now left]. right. cbn [negb].
  assert (Hdur : (0 < profile_duration p)%Z).
  { unfold resample_ok in Er. rewrite !andb_true_iff in Er. destruct Er as (((((H1 & H2) & _) & _) & _) & H6).
    unfold profile_duration. apply Qltb_lt in H6. destruct (p_weights p) as [|w ws]; [cbn in H6; lra|].
    cbn [length]. lia. }
  destruct (latest_date_before_total (p_start p) now _ Hdur) as (m & d & H & -> & H1 & H2).
  rewrite E in H. injection H as ->.
  pose proof (resample_ok_grid p cstep _ m eq_refl Er) as Hg.
  pose proof Hg as [Hc Hs Hd Hb Hl Hn Hq].
  pose proof (initial_rotated p cstep _ m Hc Hs Hd Hb Hl Hq) as Hr.
  pose proof (times_step p cstep Hc Hs Hd) as Hts.
  destruct (first_bin cstep (p_start p + m * profile_duration p) now (grid_n p cstep)) as (J & HJ & J1 & J2 & J3).
  { easy. } { easy. }
  { unfold grid_n. rewrite Nat2Z.inj_mul. unfold profile_duration in *. lia. }
  exists (p_start p + m * profile_duration p)%Z, m, J. eexists. split; [easy|]. split; [easy|].
  split; [easy|]. split; [reflexivity|]. split; [exact Hr|]. split; [easy|]. split; [easy|].
  split; [easy|]. now rewrite (initial_length p cstep _ m Hg).
Qed.

Lemma new_cyclic_inv fuel p now cstep st y :
  new_cyclic_fuel fuel p now cstep st = Ok y ->
  exists base m J, valid_grid p cstep base m /\ (base <= now < base + profile_duration p)%Z /\
    J < grid_n p cstep /\ (now <= base + Z.of_nat J * cstep < now + cstep)%Z /\
    y_config y = p /\ y_state y = st /\ y_bins y = grid_n p cstep /\
    rotated (grid_W p base cstep) (grid_n p cstep) base cstep J (y_profile y).
Proof.
  intros H. destruct (new_cyclic_cases fuel p now cstep st) as [(e & _ & He)|[He|Hx]]; [congruence..|].
  destruct Hx as (base & m & J & l & Hd & Hg & Hn & Hl & Hr & HJ & HJ1 & HJ2 & Heq).
  rewrite Heq in H. destruct (while_fuel _ _ _ _) as [l'|] eqn:Ew; [|easy]. cbn [bind] in H.
  injection H as <-.
  assert (HW : forall i, grid_W p base cstep (i + grid_n p cstep) = grid_W p base cstep i).
  { destruct Hg. intros i. now apply (grid_periodic p cstep base m). }
  assert (Hpos : 0 < grid_n p cstep). { destruct Hg. now apply bins_pos. }
  destruct (Nat.eq_dec J (grid_n p cstep)) as [->|Hne].
  { rewrite (align_diverges _ _ base cstep now HW Hpos HJ2 l Hr) in Ew. easy. }
  exists base, m, J. assert (HJn : J < grid_n p cstep) by lia.
  destruct (align_ok _ _ base cstep now J HW ltac:(lia) ltac:(lia) HJ2 (Nat.max fuel J) 0 l)
    as (l2 & Hl2 & Hr2); [lia|lia|easy|].
  pose proof (while_fuel_mono _ _ fuel (Nat.max fuel J) l l' ltac:(lia) Ew) as Hm.
  rewrite Hl2 in Hm. injection Hm as ->. cbn [y_config y_state y_bins y_profile].
  exact (conj Hg (conj Hn (conj HJn (conj HJ1 (conj eq_refl (conj eq_refl (conj eq_refl Hr2))))))).
Qed.

Lemma new_cyclic_last_bin fuel p now cstep st base :
  latest_date_before (p_start p) now (profile_duration p) = Ok base ->
  resample_ok (p_weights p) (p_step p) cstep base = true ->
  (base + profile_duration p - cstep < now)%Z ->
  new_cyclic_fuel fuel p now cstep st = Err Diverges.
Proof.
  intros Hd Hr Hlast. destruct (new_cyclic_cases fuel p now cstep st) as [(e & He & _)|[He|Hx]]; [congruence| |].
  { unfold new_cyclic_fuel in He. rewrite Hd in He. cbn [bind] in He. rewrite Hr in He. cbn [negb] in He.
    destruct (while_fuel _ _ _ _) eqn:E; [easy|]. cbn [bind] in He. injection He as ->.
    exfalso. clear - E. revert E. generalize (initial_profile (p_weights p) (p_step p) cstep base).
    induction fuel as [|fuel IH]; intros l; cbn [while_fuel]; destruct (before_now now l); try easy.
    apply IH. }
  destruct Hx as (base' & m & J & l & Hd' & Hg & Hn & Hl & Hr' & HJ & HJ1 & HJ2 & Heq).
  rewrite Hd in Hd'. injection Hd' as <-.
  pose proof Hg as [Hc Hs Hdv Hb Hln Hnn Hq].
  assert (HW : forall i, grid_W p base cstep (i + grid_n p cstep) = grid_W p base cstep i).
  { intros i. now apply (grid_periodic p cstep base m). }
  assert (Hpos : 0 < grid_n p cstep) by now apply bins_pos.
  rewrite Heq, (align_diverges _ _ base cstep now HW Hpos) with (l := l); [easy| |easy].
  intros i Hi. pose proof (times_step p cstep Hc Hs Hdv) as Hts.
  assert (Hdur : profile_duration p = (Z.of_nat (grid_n p cstep) * cstep)%Z).
  { unfold profile_duration, grid_n. rewrite Nat2Z.inj_mul. rewrite Hts at 1. ring. }
  nia.
Qed.

Lemma new_cyclic_terminates p now cstep st base :
  latest_date_before (p_start p) now (profile_duration p) = Ok base ->
  resample_ok (p_weights p) (p_step p) cstep base = true ->
  (now <= base + profile_duration p - cstep)%Z ->
  exists y, new_cyclic p now cstep st = Ok y.
Proof.
  intros Hd Hr Hlast. unfold new_cyclic. fold (grid_n p cstep).
  assert (Hnu : forall fuel, new_cyclic_fuel fuel p now cstep st <> Err Unmodelled).
  { intros fuel He. unfold new_cyclic_fuel in He. rewrite Hd in He. cbn [bind] in He. rewrite Hr in He. cbn [negb] in He.
    destruct (while_fuel _ _ _ _) eqn:E; [easy|]. cbn [bind] in He. injection He as ->.
    exfalso. clear - E. revert E. generalize (initial_profile (p_weights p) (p_step p) cstep base).
    induction fuel as [|fuel IH]; intros l; cbn [while_fuel]; destruct (before_now now l); try easy.
    apply IH. }
  destruct (new_cyclic_cases (grid_n p cstep) p now cstep st) as [(e & He & _)|[He|Hx]]; [congruence|now apply Hnu in He|].
  destruct Hx as (base' & m & J & l & Hd' & Hg & Hn & Hl & Hr' & HJ & HJ1 & HJ2 & Heq).
  rewrite Hd in Hd'. injection Hd' as <-.
  pose proof Hg as [Hc Hs Hdv Hb Hln Hnn Hq].
  assert (HW : forall i, grid_W p base cstep (i + grid_n p cstep) = grid_W p base cstep i).
  { intros i. now apply (grid_periodic p cstep base m). }
  assert (Hpos : 0 < grid_n p cstep) by now apply bins_pos.
  pose proof (times_step p cstep Hc Hs Hdv) as Hts.
  assert (Hdur : profile_duration p = (Z.of_nat (grid_n p cstep) * cstep)%Z).
  { unfold profile_duration, grid_n. rewrite Nat2Z.inj_mul. rewrite Hts at 1. ring. }
  assert (HJn : J < grid_n p cstep).
  { destruct (Nat.eq_dec J (grid_n p cstep)) as [->|]; [|lia].
    specialize (HJ2 (grid_n p cstep - 1) ltac:(lia)). nia. }
  destruct (align_ok _ _ base cstep now J HW HJn ltac:(lia) HJ2 (grid_n p cstep) 0 l)
    as (l2 & Hl2 & Hr2); [lia|lia|easy|].
  rewrite Heq, Hl2. cbn [bind]. eauto.
Qed.
