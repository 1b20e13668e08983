(** How cyclic timers use random numbers. *)
From Coq Require Import Qround Qabs.
From Verif Require Import Base BaseFacts Rng RngFacts Utils UtilsFacts Relationship RelationshipFacts Frame Gens GensProps
  Clock SpecClock ClockFacts ClockProps SpecRelationship SpecRandom RandomFacts.
From Coq Require Import Lqa.
Local Open Scope nat_scope.

Lemma reindex_like_nth {A B} (s : list (val * A)) (obs : list (val * B)) ts :
  NoDup (map fst s) -> reindex_like s obs = Ok ts ->
  forall j i a, nth_error obs j = Some (i, a) -> nth_error ts j = Some (i, dget i s).
Proof.
  intros Hnd. unfold reindex_like. destruct (list_eqb (map fst s) (map fst obs)) eqn:E.
  - apply list_eqb_eq in E. intros [= <-] j i a Hj.
    assert (Hk : nth_error (map fst s) j = Some i) by (rewrite E, nth_error_map, Hj; reflexivity).
    rewrite nth_error_map in Hk |- *. destruct (nth_error s j) as [[i' x]|] eqn:Es; [|discriminate].
    cbn in Hk. injection Hk as ->. cbn. do 2 f_equal. symmetry. apply In_dget; [exact Hnd|]. eapply nth_error_In; eauto.
  - destruct (negb _); [discriminate|]. intros [= <-] j i a Hj. rewrite nth_error_map, Hj. reflexivity.
Qed.

Lemma low_ones_filter obs : low_ones obs = length (filter (fun o => is_low (snd o)) obs).
Proof. induction obs as [|[i a] obs IH]; [reflexivity|]. cbn [low_ones filter snd]. rewrite IH. destruct (is_low a); reflexivity. Qed.

Lemma filter_nth {A} (f : A -> bool) l : forall j x, nth_error l j = Some x -> f x = true ->
  nth_error (filter f l) (length (filter f (firstn j l))) = Some x.
Proof.
  induction l as [|y l IH]; intros [|j] x; cbn [nth_error firstn filter]; try discriminate.
  - intros [= ->] H. rewrite H. reflexivity.
  - intros Hj H. destruct (f y); cbn [length nth_error]; auto.
Qed.

Lemma generate_low_timers y obs ts y' j i a :
  NoDup (map fst obs) -> cyclic_generate y obs = Ok (ts, y') ->
  nth_error obs j = Some (i, a) -> is_low a = true ->
  nth_error ts j = Some (i, Some (Z.max 0 (low_slot y a (coming (y_state y) (low_ones (firstn j obs))) - 1))).
Proof.
  intros Hnd. unfold cyclic_generate.
  set (low := filter (fun o => is_low (snd o)) obs). set (high := filter (fun o => is_high (snd o)) obs).
  rewrite draws_uniform. cbv beta iota zeta.
  destruct (draws beta (length high) _) as [bs st2] eqn:E2. pose proof (draws_length _ _ _ _ _ E2) as L2.
  set (all := map _ (_ ++ _)). intros H Hj Ha. apply bind_ok in H as (timers & H & [= <- _]).
  assert (Hk : map fst all = map fst (positive_rows obs)).
  { unfold all, positive_rows. fold low high. rewrite map_map, !map_app, !map_map. f_equal.
    - assert (L : length (map (coming (y_state y)) (seq 0 (length low))) = length low) by now rewrite map_length, seq_length.
      revert L. generalize (map (coming (y_state y)) (seq 0 (length low))) as us. generalize low.
      induction low0 as [|[i0 a0] l IH]; intros [|u us] L; try discriminate; cbn; [reflexivity|]. f_equal. apply IH. now injection L.
    - revert L2. clear. revert bs. induction high as [|[i0 a0] l IH]; intros [|u us] L; try discriminate; cbn; [reflexivity|].
      f_equal. apply IH. now injection L. }
  assert (Hnda : NoDup (map fst all)) by (rewrite Hk; now apply positive_rows_NoDup).
  rewrite (reindex_like_nth _ _ _ Hnda H _ _ _ Hj). do 2 f_equal. apply In_dget; [exact Hnda|].
  unfold all. apply in_map_iff. eexists (i, _). split; [reflexivity|]. apply in_or_app. left.
  apply in_map_iff. exists ((i, a), coming (y_state y) (low_ones (firstn j obs))). split; [reflexivity|].
  pose proof (filter_nth (fun o => is_low (snd o)) obs j (i, a) Hj Ha) as Hn. fold low in Hn.
  rewrite <- low_ones_filter in Hn. set (m := low_ones (firstn j obs)) in *.
  assert (Hm : m < length low) by (apply nth_error_Some; congruence).
  assert (Hu : nth_error (map (coming (y_state y)) (seq 0 (length low))) m = Some (coming (y_state y) m)).
  { rewrite nth_error_map, (nth_error_nth' _ 0), seq_nth by (rewrite ?seq_length; lia). reflexivity. }
  assert (Hc : nth_error (combine low (map (coming (y_state y)) (seq 0 (length low)))) m = Some ((i, a), coming (y_state y) m)).
  { revert Hn Hu. clearbody m low. clear. generalize (map (coming (y_state y)) (seq 0 (length low))) as us, (coming (y_state y) m) as c.
    intros us c. revert us m. induction low as [|x l IH]; intros [|u us] [|m]; cbn; try discriminate; [congruence|apply IH]. }
  eapply nth_error_In; exact Hc.
Qed.

Lemma search_reached p start cstep k y x :
  live p start cstep k y -> (x <= 1)%Q ->
  search_left (y_cdf y) x < y_bins y /\
  reached_in (weights_from p (bin_start p start cstep (Z.of_nat k)) cstep (y_bins y)) x (search_left (y_cdf y) x).
Proof.
  intros H Hu. pose proof (cdf_shape _ _ _ _ _ H) as [(c1 & Hc1 & Hc1') _].
  destruct (profile_follows_clock _ _ _ _ _ H) as (_ & Hc).
  destruct (search_left_spec (y_cdf y) x) as (S1 & (cs & Hcs & Hule) & S3).
  { exists c1. split; [eapply nth_error_In; eauto|lra]. }
  destruct Hc as (Hl & Hp & Hc). assert (Hlen : length (y_cdf y) = y_bins y).
  { rewrite Hl. unfold weights_from. now rewrite map_length, seq_length. }
  split; [lia|]. set (s := search_left (y_cdf y) x) in *.
  set (ws := weights_from p (bin_start p start cstep (Z.of_nat k)) cstep (y_bins y)) in *.
  split.
  - destruct s as [|s']; [now left|right]. destruct (nth_error (y_cdf y) s') as [cp|] eqn:Ep; [|apply nth_error_None in Ep; lia].
    pose proof (S3 s' cp ltac:(lia) Ep) as Hlt. rewrite <- (Hc _ _ Ep). apply Qmult_lt_r; lra.
  - rewrite <- (Hc _ _ Hcs). apply Qmult_le_compat_r; lra.
Qed.

Lemma timer_exact p start cstep k y obs ts y' j i a :
  live p start cstep k y -> NoDup (map fst obs) -> cyclic_generate y obs = Ok (ts, y') ->
  nth_error obs j = Some (i, a) -> (0 < a /\ a <= 2)%Q ->
  exists c b,
    let x := (2 * coming (y_state y) (low_ones (firstn j obs)) / a)%Q in
    (inject_Z c <= x /\ x < inject_Z (c + 1))%Q /\
    b < y_bins y /\
    reached_in (weights_from p (bin_start p start cstep (Z.of_nat k)) cstep (y_bins y)) (x - inject_Z c) b /\
    nth_error ts j = Some (i, Some (Z.max 0 (Z.of_nat (y_bins y) * c + Z.of_nat b - 1))).
Proof.
  intros Hl Hnd Hg Hj Ha. apply is_low_iff in Ha as Ha'.
  rewrite (generate_low_timers _ _ _ _ _ _ _ Hnd Hg Hj Ha'). unfold low_slot.
  set (x := (2 * coming (y_state y) (low_ones (firstn j obs)) / a)%Q). set (c := Qfloor x).
  exists c, (search_left (y_cdf y) (x - inject_Z c)). cbv zeta.
  pose proof (Qfloor_le x) as Hf1. pose proof (Qlt_floor x) as Hf2. fold c in Hf1, Hf2.
  split; [split; assumption|].
  assert (Hx : (x - inject_Z c <= 1)%Q) by (rewrite inject_Z_plus in Hf2; change (inject_Z 1) with 1%Q in Hf2; lra).
  destruct (search_reached _ _ _ _ _ _ Hl Hx) as [B1 B2]. split; [exact B1|]. split; [exact B2|].
  do 4 f_equal. lia.
Qed.

(** ** Mean waiting time *)
Lemma total_le f g n : (forall k, k < n -> (f k <= g k)%Q) -> (total f n <= total g n)%Q.
Proof.
  induction n as [|n IH]; intros H; cbn [total]; [lra|]. assert (total f n <= total g n)%Q by auto.
  assert (f n <= g n)%Q by auto. lra.
Qed.

Lemma total_linear a b f n : (total (fun k => a * f k + b) n == a * total f n + b * inject_Z (Z.of_nat n))%Q.
Proof.
  induction n as [|n IH]; cbn [total]; [change (inject_Z (Z.of_nat 0)) with 0%Q; ring|].
  rewrite IH, Nat2Z.inj_succ. unfold Z.succ. rewrite inject_Z_plus. change (inject_Z 1) with 1%Q. ring.
Qed.

Lemma total_ids n : (2 * total (fun k => inject_Z (Z.of_nat k)) n == inject_Z (Z.of_nat n) * (inject_Z (Z.of_nat n) - 1))%Q.
Proof.
  induction n as [|n IH]; cbn [total]; [reflexivity|]. rewrite Qmult_plus_distr_r, IH, Nat2Z.inj_succ.
  unfold Z.succ. rewrite inject_Z_plus. change (inject_Z 1) with 1%Q. ring.
Qed.

Lemma slot_near p start cstep k y a u :
  live p start cstep k y -> (0 < a)%Q -> (0 <= u)%Q -> (u < 1)%Q ->
  let bins := inject_Z (Z.of_nat (y_bins y)) in
  (bins * (2 * u / a) - bins < inject_Z (low_slot y a u) /\ inject_Z (low_slot y a u) < bins * (2 * u / a) + bins)%Q.
Proof.
  intros Hl Ha H0 H1 bins. unfold low_slot. set (x := (2 * u / a)%Q). set (c := Qfloor x).
  pose proof (Qfloor_le x) as Hf1. pose proof (Qlt_floor x) as Hf2. fold c in Hf1, Hf2.
  rewrite inject_Z_plus in Hf2. change (inject_Z 1) with 1%Q in Hf2.
  assert (Hx : (x - inject_Z c <= 1)%Q) by lra.
  destruct (search_reached _ _ _ _ _ _ Hl Hx) as [B1 _]. destruct (live_profile _ _ _ _ _ Hl) as (_ & _ & _ & Hb).
  rewrite inject_Z_plus, inject_Z_mult. fold bins.
  set (s := inject_Z (Z.of_nat (search_left _ _))).
  assert (Hs0 : (0 <= s)%Q) by (unfold s; change 0%Q with (inject_Z 0); rewrite <- Zle_Qle; lia).
  assert (Hs1 : (s + 1 <= bins)%Q).
  { unfold s, bins. change 1%Q with (inject_Z 1). rewrite <- inject_Z_plus, <- Zle_Qle. lia. }
  assert (Hbp : (0 < bins)%Q) by lra.
  assert (bins * inject_Z c <= bins * x)%Q by (apply Qmult_le_l; assumption).
  assert (bins * x < bins * (inject_Z c + 1))%Q by (apply Qmult_lt_l; assumption). lra.
Qed.

Lemma mean_wait p start cstep k y a n :
  live p start cstep k y -> (0 < a)%Q -> 0 < n ->
  let bins := inject_Z (Z.of_nat (y_bins y)) in
  let N := inject_Z (Z.of_nat n) in
  let mean := (total (fun i => inject_Z (low_slot y a (inject_Z (Z.of_nat i) / N))) n / N)%Q in
  ((1 - 1 / N) / a - 1 <= mean / bins /\ mean / bins <= (1 - 1 / N) / a + 1)%Q.
Proof.
  intros Hl Ha Hn bins N mean.
  assert (HN : (0 < N)%Q) by (unfold N; change 0%Q with (inject_Z 0); rewrite <- Zlt_Qlt; lia).
  destruct (live_profile _ _ _ _ _ Hl) as (_ & _ & _ & Hb).
  assert (HB : (0 < bins)%Q) by (unfold bins; change 0%Q with (inject_Z 0); rewrite <- Zlt_Qlt; lia).
  set (f := fun i => inject_Z (low_slot y a (inject_Z (Z.of_nat i) / N))) in *.
  assert (R : forall i, i < n -> (bins * 2 / (a * N) * inject_Z (Z.of_nat i) + - bins <= f i /\
                                  f i <= bins * 2 / (a * N) * inject_Z (Z.of_nat i) + bins)%Q).
  { intros i Hi. set (u := (inject_Z (Z.of_nat i) / N)%Q).
    assert (U0 : (0 <= u)%Q).
    { unfold u. apply Qle_shift_div_l; [exact HN|]. rewrite Qmult_0_l. change 0%Q with (inject_Z 0). rewrite <- Zle_Qle. lia. }
    assert (U1 : (u < 1)%Q).
    { unfold u. apply Qlt_shift_div_r; [exact HN|]. rewrite Qmult_1_l. unfold N. rewrite <- Zlt_Qlt. lia. }
    destruct (slot_near _ _ _ _ _ a u Hl Ha U0 U1) as [A B]. fold bins in A, B.
    change (inject_Z (low_slot y a u)) with (f i) in A, B.
    setoid_replace (bins * 2 / (a * N) * inject_Z (Z.of_nat i))%Q with (bins * (2 * u / a))%Q; [lra|].
    unfold u. field. split; lra. }
  assert (T : (total (fun i => bins * 2 / (a * N) * inject_Z (Z.of_nat i)) n == bins * (N - 1) / a)%Q).
  { pose proof (total_linear (bins * 2 / (a * N)) 0 (fun i => inject_Z (Z.of_nat i)) n) as E.
    assert (E' : (total (fun i => bins * 2 / (a * N) * inject_Z (Z.of_nat i)) n ==
                  total (fun i => bins * 2 / (a * N) * inject_Z (Z.of_nat i) + 0) n)%Q).
    { apply Qle_antisym; apply total_le; intros; lra. }
    rewrite E', E. pose proof (total_ids n) as I. fold N in I.
    set (t := total (fun k0 => inject_Z (Z.of_nat k0)) n) in *.
    setoid_replace (bins * 2 / (a * N) * t + 0 * inject_Z (Z.of_nat n))%Q with (bins / (a * N) * (2 * t))%Q by (field; split; lra).
    rewrite I. field. split; lra. }
  assert (LO : (bins * (N - 1) / a - bins * N <= total f n)%Q).
  { pose proof (total_le (fun i => bins * 2 / (a * N) * inject_Z (Z.of_nat i) + - bins)%Q f n (fun i Hi => proj1 (R i Hi))) as G.
    pose proof (total_linear 1 (- bins) (fun i => bins * 2 / (a * N) * inject_Z (Z.of_nat i))%Q n) as E. fold N in E.
    assert (E' : (total (fun i => bins * 2 / (a * N) * inject_Z (Z.of_nat i) + - bins) n ==
                  total (fun i => 1 * (bins * 2 / (a * N) * inject_Z (Z.of_nat i)) + - bins) n)%Q).
    { apply Qle_antisym; apply total_le; intros; lra. }
    rewrite E', E, T in G. lra. }
  assert (HI : (total f n <= bins * (N - 1) / a + bins * N)%Q).
  { pose proof (total_le f (fun i => bins * 2 / (a * N) * inject_Z (Z.of_nat i) + bins)%Q n (fun i Hi => proj2 (R i Hi))) as G.
    pose proof (total_linear 1 bins (fun i => bins * 2 / (a * N) * inject_Z (Z.of_nat i))%Q n) as E. fold N in E.
    assert (E' : (total (fun i => bins * 2 / (a * N) * inject_Z (Z.of_nat i) + bins) n ==
                  total (fun i => 1 * (bins * 2 / (a * N) * inject_Z (Z.of_nat i)) + bins) n)%Q).
    { apply Qle_antisym; apply total_le; intros; lra. }
    rewrite E', E, T in G. lra. }
  assert (HBN : (0 < bins * N)%Q) by (apply Qmult_lt_0_compat; assumption).
  assert (M : (mean / bins == total f n / (bins * N))%Q) by (unfold mean; field; split; lra).
  rewrite M. split.
  - apply Qle_shift_div_l; [exact HBN|].
    setoid_replace (((1 - 1 / N) / a - 1) * (bins * N))%Q with (bins * (N - 1) / a - bins * N)%Q by (field; split; lra). exact LO.
  - apply Qle_shift_div_r; [exact HBN|].
    setoid_replace (((1 - 1 / N) / a + 1) * (bins * N))%Q with (bins * (N - 1) / a + bins * N)%Q by (field; split; lra). exact HI.
Qed.

Lemma mean_timer p start cstep k y a m (z : nat -> Z) n : Z.of_nat n = Zpos two53 ->
  live p start cstep k y -> (0 < a /\ a <= 2)%Q ->
  (forall i st, i < n -> coming st 0 = (Z.of_nat i # two53)%Q ->
     exists y', cyclic_generate (fed_with y st) [(m, a)] = Ok ([(m, Some (z i))], y')) ->
  let bins := inject_Z (Z.of_nat (y_bins y)) in
  let mean := (average (fun i => inject_Z (z i)) n / bins)%Q in
  ((1 - (1 # two53)) / a - 1 - 1 / bins <= mean /\ mean <= (1 - (1 # two53)) / a + 1)%Q.
Proof.
  intros En Hl Ha Hz bins mean. symmetry in En. assert (Hn : 0 < n) by lia.
  set (N := inject_Z (Z.of_nat n)).
  assert (HN : (0 < N)%Q) by (unfold N; change 0%Q with (inject_Z 0); rewrite <- Zlt_Qlt; lia).
  assert (Eu : forall i, (Z.of_nat i # two53 == inject_Z (Z.of_nat i) / N)%Q).
  { intros i. unfold N. rewrite <- En. apply Qmake_Qdiv. }
  destruct (live_profile _ _ _ _ _ Hl) as (_ & _ & _ & Hb).
  assert (HB : (0 < bins)%Q) by (unfold bins; change 0%Q with (inject_Z 0); rewrite <- Zlt_Qlt; lia).
  assert (Esl : forall u v, (u == v)%Q -> low_slot y a u = low_slot y a v).
  { intros u v E. unfold low_slot. assert (E2 : (2 * u / a == 2 * v / a)%Q) by now rewrite E.
    rewrite (Qfloor_comp _ _ E2). set (c := Qfloor (2 * v / a)). f_equal. f_equal.
    assert (E3 : (2 * u / a - inject_Z c == 2 * v / a - inject_Z c)%Q) by now rewrite E2.
    clear -E3. induction (y_cdf y) as [|q l IH]; cbn [search_left]; [reflexivity|]. 
    assert (B : Qltb q (2 * u / a - inject_Z c) = Qltb q (2 * v / a - inject_Z c)).
    { apply eq_true_iff_eq. rewrite !Qltb_lt. now rewrite E3. }
    rewrite B. now rewrite IH. }
  assert (Zi : forall i, i < n -> z i = Z.max 0 (low_slot y a (inject_Z (Z.of_nat i) / N) - 1)).
  { intros i Hi.
    assert (Hc : coming (mkRng (fun _ => N.of_nat i) 0) 0 = (Z.of_nat i # two53)%Q).
    { unfold coming. cbn [tape pos Nat.add]. rewrite N.mod_small by lia. now rewrite nat_N_Z. }
    destruct (Hz i _ Hi Hc) as (y' & Hg).
    assert (Hnd : NoDup (map fst [(m, a)])) by (constructor; [intros []|constructor]).
    pose proof (generate_low_timers _ _ _ _ 0 m a Hnd Hg eq_refl (proj2 (is_low_iff a) Ha)) as E.
    cbn [firstn low_ones nth_error] in E. injection E as E. rewrite E. f_equal. f_equal.
    change (y_state (fed_with y (mkRng (fun _ => N.of_nat i) 0))) with (mkRng (fun _ => N.of_nat i) 0).
    rewrite Hc. change (low_slot (fed_with y (mkRng (fun _ => N.of_nat i) 0)) a) with (low_slot y a).
    apply Esl, Eu. }
  pose proof (mean_wait _ _ _ _ _ a n Hl (proj1 Ha) Hn) as G. cbv zeta in G. fold bins N in G.
  set (f := fun i => inject_Z (low_slot y a (inject_Z (Z.of_nat i) / N))) in *.
  assert (S0 : forall i, i < n -> (0 <= low_slot y a (inject_Z (Z.of_nat i) / N))%Z).
  { intros i Hi.
    assert (U : (0 <= inject_Z (Z.of_nat i) / N)%Q /\ (inject_Z (Z.of_nat i) / N < 1)%Q).
    { split; [apply Qle_shift_div_l|apply Qlt_shift_div_r]; try exact HN.
      - rewrite Qmult_0_l. change 0%Q with (inject_Z 0). rewrite <- Zle_Qle. lia.
      - rewrite Qmult_1_l. unfold N. rewrite <- Zlt_Qlt. lia. }
    destruct (low_slot_ok _ _ _ _ _ a _ Hl (proj1 Ha) (proj1 U) (proj2 U)) as [[Hs _] _]. exact Hs. }
  assert (LO : (total f n - N <= total (fun i => inject_Z (z i)) n)%Q).
  { pose proof (total_linear 1 (-1) f n) as E. fold N in E.
    pose proof (total_le (fun i => 1 * f i + -1)%Q (fun i => inject_Z (z i)) n) as T.
    rewrite E in T. assert (T' : (1 * total f n + -1 * N <= total (fun i => inject_Z (z i)) n)%Q); [|lra].
    apply T. intros i Hi. rewrite (Zi i Hi). unfold f.
    change 1%Q with (inject_Z 1). change (-1)%Q with (inject_Z (-1)).
    rewrite <- inject_Z_mult, <- inject_Z_plus, <- Zle_Qle. lia. }
  assert (HI : (total (fun i => inject_Z (z i)) n <= total f n)%Q).
  { apply total_le. intros i Hi. rewrite (Zi i Hi). unfold f. rewrite <- Zle_Qle. pose proof (S0 i Hi). lia. }
  assert (E1 : (1 # two53 == 1 / N)%Q) by (unfold N; rewrite <- En; apply (Qmake_Qdiv 1)).
  rewrite E1. unfold mean, average. fold N.
  set (tz := total (fun i => inject_Z (z i)) n) in *. set (tf := total f n) in *.
  assert (HBN : (0 < N * bins)%Q) by (apply Qmult_lt_0_compat; assumption).
  assert (D : forall t, (t / N / bins == t / (N * bins))%Q) by (intros t; field; split; lra).
  rewrite D in G. rewrite D. split.
  - assert (A : (tf / (N * bins) - 1 / bins <= tz / (N * bins))%Q).
    { apply Qle_shift_div_l; [exact HBN|].
      setoid_replace ((tf / (N * bins) - 1 / bins) * (N * bins))%Q with (tf - N)%Q by (field; split; lra). exact LO. }
    lra.
  - assert (A : (tz / (N * bins) <= tf / (N * bins))%Q).
    { apply Qle_shift_div_l; [exact HBN|].
      setoid_replace (tz / (N * bins) * (N * bins))%Q with tz by (field; split; lra). exact HI. }
    lra.
Qed.

(** One number decides: the same number gives the same timer. *)
Lemma timer_determined y a m : (0 < a /\ a <= 2)%Q ->
  exists z : nat -> Z, forall i st, coming st 0 = (Z.of_nat i # two53)%Q ->
    exists y', cyclic_generate (fed_with y st) [(m, a)] = Ok ([(m, Some (z i))], y').
Proof.
  intros Ha. apply is_low_iff in Ha as El. exists (fun i => Z.max 0 (low_slot y a (Z.of_nat i # two53)%Q - 1)).
  intros i st Hc.
  destruct (cyclic_generate (fed_with y st) [(m, a)]) as [[ts y']|e] eqn:E.
  - assert (Hnd : NoDup (map fst [(m, a)])) by (constructor; [intros []|constructor]).
    pose proof (generate_low_timers _ _ _ _ 0 m a Hnd E eq_refl El) as H.
    assert (L : length ts = 1).
    { unfold cyclic_generate in E. destruct (draws _ _ _). destruct (draws _ _ _) as [? ?].
      apply bind_ok in E as (t & E & [= <- _]). unfold reindex_like in E.
      match type of E with (if ?b then _ else _) = _ => destruct b eqn:B end.
      - apply list_eqb_eq in B. injection E as <-. apply (f_equal (@length _)) in B. rewrite !map_length in B |- *; exact B.
      - destruct (negb _); [discriminate|]. injection E as <-. reflexivity. }
    destruct ts as [|x [|? ?]]; try discriminate. cbn [nth_error firstn low_ones] in H. injection H as ->.
    exists y'. do 6 f_equal. 
    change (y_state (fed_with y st)) with st. now rewrite Hc.
  - exfalso. revert E. unfold cyclic_generate. cbn [filter snd]. rewrite El.
    assert (Eh : is_high a = false). { unfold is_high, is_low in *. destruct Ha as [_ Ha]. destruct (Qltb_lt 2 a). destruct (Qltb 2 a); [|reflexivity]. specialize (H eq_refl). lra. }
    rewrite Eh. cbn [length]. rewrite draws_uniform. cbn [draws]. cbn [seq map combine app]. unfold reindex_like. cbn [map fst].
    rewrite (proj2 (list_eqb_eq [m] [m]) eq_refl). discriminate.
Qed.
