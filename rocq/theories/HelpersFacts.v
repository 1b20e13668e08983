(** Facts about the functions usable in Apply. *)
From Coq Require Import Reals Lra Binomial.
From Verif Require Import Base BaseFacts Frame World Ops SpecOps OpsFacts OpsProps OpsColumns SpecHelpers Helpers.

(** ** bound_value *)
Section Bound.
  Context {A} {le : A -> A -> Prop} {lt : A -> A -> bool} (O : order le lt).
  Lemma ord_refl a : le a a.
  Proof. destruct (ord_total O a a); assumption. Qed.
  Lemma ord_true a b : lt a b = true -> le a b.
  Proof.
    intros H. destruct (ord_total O a b) as [L|L]; [exact L|]. apply (ord_lt O) in L. congruence.
  Qed.

  Lemma py_max_ge a b : le a (py_max lt a b) /\ le b (py_max lt a b).
  Proof.
    unfold py_max. destruct (lt a b) eqn:E; [split; [now apply ord_true|apply ord_refl]|].
    split; [apply ord_refl|]. now apply (ord_lt O).
  Qed.
  Lemma py_min_le a b : le (py_min lt a b) a /\ le (py_min lt a b) b.
  Proof.
    unfold py_min. destruct (lt b a) eqn:E; [split; [now apply ord_true|apply ord_refl]|].
    split; [apply ord_refl|]. now apply (ord_lt O).
  Qed.
  Lemma py_max_lub a b c : le a c -> le b c -> le (py_max lt a b) c.
  Proof. unfold py_max. now destruct (lt a b). Qed.
  Lemma py_min_glb a b c : le c a -> le c b -> le c (py_min lt a b).
  Proof. unfold py_min. now destruct (lt b a). Qed.

  Lemma bound_in_range lb ub v :
    (forall l u, lb = Some l -> ub = Some u -> le l u) ->
    within le lb ub (bound_value lt lb ub v).
  Proof.
    intros H. unfold bound_value, within. split.
    - intros l E. rewrite E. destruct ub as [u|] eqn:U; [|apply py_max_ge].
      apply py_min_glb; [now apply H|apply py_max_ge].
    - intros u E. rewrite E. apply py_min_le.
  Qed.
  Lemma bound_upper_wins l u v : le u l -> le (bound_value lt (Some l) (Some u) v) u /\ le u (bound_value lt (Some l) (Some u) v).
  Proof.
    intros H. unfold bound_value. split; [apply py_min_le|]. apply py_min_glb; [apply ord_refl|].
    eapply (ord_trans O); [exact H|apply py_max_ge].
  Qed.
  Lemma bound_mono lb ub v v' : le v v' -> le (bound_value lt lb ub v) (bound_value lt lb ub v').
  Proof.
    intros H. unfold bound_value.
    assert (M : le (match lb with None => v | Some l => py_max lt l v end) (match lb with None => v' | Some l => py_max lt l v' end)).
    { destruct lb as [l|]; [|exact H]. apply py_max_lub; [apply py_max_ge|].
      eapply (ord_trans O); [exact H|apply py_max_ge]. }
    destruct ub as [u|]; [|exact M]. apply py_min_glb; [apply py_min_le|].
    eapply (ord_trans O); [apply py_min_le|exact M].
  Qed.
  Lemma bound_inside lb ub v : strictly_within lt lb ub v -> bound_value lt lb ub v = v.
  Proof.
    intros [H1 H2]. unfold bound_value. 
    assert (E : (match lb with None => v | Some l => py_max lt l v end) = v).
    { destruct lb as [l|]; [|reflexivity]. unfold py_max. now rewrite H1. }
    rewrite E. destruct ub as [u|]; [|reflexivity]. unfold py_min. now rewrite H2.
  Qed.
  Lemma bound_inside_le lb ub v : within le lb ub v ->
    le (bound_value lt lb ub v) v /\ le v (bound_value lt lb ub v).
  Proof.
    intros [H1 H2]. unfold bound_value. split.
    - assert (E : le (match lb with None => v | Some l => py_max lt l v end) v).
      { destruct lb as [l|]; [|apply ord_refl]. apply py_max_lub; [now apply H1|apply ord_refl]. }
      destruct ub as [u|]; [|exact E]. eapply (ord_trans O); [apply py_min_le|exact E].
    - assert (E : le v (match lb with None => v | Some l => py_max lt l v end)).
      { destruct lb as [l|]; [|apply ord_refl]. apply py_max_ge. }
      destruct ub as [u|]; [|exact E]. apply py_min_glb; [now apply H2|exact E].
  Qed.
  Lemma bound_one_of lb ub v : bound_value lt lb ub v = v \/ lb = Some (bound_value lt lb ub v) \/ ub = Some (bound_value lt lb ub v).
  Proof.
    unfold bound_value. destruct lb as [l|], ub as [u|]; unfold py_max, py_min;
    repeat match goal with |- context [lt ?a ?b] => destruct (lt a b) end; auto.
  Qed.
  Lemma bound_twice lb ub v : bound_value lt lb ub (bound_value lt lb ub v) = bound_value lt lb ub v.
  Proof.
    unfold bound_value. destruct lb as [l|], ub as [u|]; unfold py_max, py_min;
    repeat match goal with
    | |- context [if lt ?a ?b then _ else _] => let E := fresh "E" in destruct (lt a b) eqn:E
    end; try reflexivity; try congruence;
    repeat match goal with H : context [if ?c then _ else _] |- _ => destruct c end; congruence.
  Qed.
End Bound.

Lemma Q_order : order Qle ltQ.
Proof.
  split; [exact Qle_trans| |].
  - intros a b. destruct (Qlt_le_dec a b) as [E|E]; [left; now apply Qlt_le_weak|now right].
  - intros a b. unfold ltQ. rewrite negb_false_iff. apply Qle_bool_iff.
Qed.
Lemma R_order : order Rle ltR.
Proof.
  split; [exact Rle_trans|intros; lra|].
  intros a b. unfold ltR. destruct (Rlt_dec a b); split; intros; try easy; lra.
Qed.

(** ** logistic *)
Local Open Scope R_scope.

Lemma logistic_range k x0 L x : 0 < L -> 0 < logistic k x0 L x < L /\ L / (1 + exp 10) <= logistic k x0 L x.
Proof.
  intros HL. unfold logistic. set (e := Rmin _ 10). assert (E : e <= 10) by apply Rmin_r. clearbody e.
  pose proof (exp_pos e) as P. split; [split|].
  - apply Rdiv_lt_0_compat; lra.
  - apply (Rmult_lt_reg_r (1 + exp e)); [lra|]. unfold Rdiv. rewrite Rmult_assoc, Rinv_l by lra. nra.
  - unfold Rdiv. apply Rmult_le_compat_l; [lra|]. apply Rinv_le_contravar; [lra|].
    apply Rplus_le_compat_l. destruct E as [E|E]; [left; now apply exp_increasing|right; now rewrite E].
Qed.
Lemma logistic_mono k x0 L x y : 0 < L -> 0 <= k * (y - x) -> logistic k x0 L x <= logistic k x0 L y.
Proof.
  intros HL H. unfold logistic.
  assert (E : Rmin (- k * (y - x0)) 10 <= Rmin (- k * (x - x0)) 10) by (apply Rle_min_compat_r; nra).
  unfold Rdiv. apply Rmult_le_compat_l; [lra|].
  set (a := Rmin (- k * (y - x0)) 10) in *. set (b := Rmin (- k * (x - x0)) 10) in *. clearbody a b.
  pose proof (exp_pos a). apply Rinv_le_contravar; [lra|]. apply Rplus_le_compat_l.
  destruct E as [E|E]; [left; now apply exp_increasing|right; now rewrite E].
Qed.
Lemma logistic_mid k x0 L : logistic k x0 L x0 = L / 2.
Proof.
  unfold logistic. replace (- k * (x0 - x0)) with 0 by ring. rewrite Rmin_left by lra. rewrite exp_0.
  now replace (1 + 1) with 2 by ring.
Qed.

(** ** The beta distribution with integer parameters *)
Notation T := binomial_tail.
Lemma tail_0 n x : T n 0 x = 1.
Proof. now destruct n. Qed.
Lemma tail_many n k x : (n < k)%nat -> T n k x = 0.
Proof.
  revert k. induction n as [|n IH]; intros [|k] H; cbn; try lia; [reflexivity|]. rewrite !IH by lia. ring.
Qed.
Lemma tail_S n k x : T (S n) (S k) x = x * T n k x + (1 - x) * T n (S k) x.
Proof. reflexivity. Qed.
Lemma tail_bounds n k x : 0 <= x <= 1 -> 0 <= T n k x <= 1.
Proof.
  intros Hx. revert k. induction n as [|n IH]; intros [|k]; cbn; try lra.
  pose proof (IH k). pose proof (IH (S k)). nra.
Qed.
Lemma tail_decr n k x : 0 <= x <= 1 -> T n (S k) x <= T n k x.
Proof.
  intros Hx. revert k. induction n as [|n IH]; intros [|k]; cbn [T]; try lra.
  - rewrite tail_0. pose proof (tail_bounds n 1 x Hx). nra.
  - pose proof (IH k). pose proof (IH (S k)). nra.
Qed.
Lemma tail_mono n k x y : 0 <= x -> x <= y -> y <= 1 -> T n k x <= T n k y.
Proof.
  intros H1 H2 H3. revert k. induction n as [|n IH]; intros [|k]; cbn [T]; try lra.
  pose proof (IH k). pose proof (IH (S k)). pose proof (tail_decr n k x).
  assert (x * T n k x + (1 - x) * T n (S k) x <= y * T n k x + (1 - y) * T n (S k) x) by nra. nra.
Qed.
Lemma tail_at0 n k : T n (S k) 0 = 0.
Proof. revert k. induction n as [|n IH]; intros k; cbn [T]; [reflexivity|]. rewrite IH. ring. Qed.
Lemma tail_at1 n k : (k <= n)%nat -> T n k 1 = 1.
Proof.
  revert k. induction n as [|n IH]; intros [|k] H; cbn [T]; try reflexivity; try lia. rewrite IH by lia. ring.
Qed.
Lemma tail_sym n : forall k x, T n k (1 - x) = 1 - T n (S n - k) x.
Proof.
  induction n as [|n IH]; intros k x.
  - destruct k as [|[|k]]; cbn [T Nat.sub]; ring.
  - destruct k as [|k].
    + rewrite tail_0, tail_many by lia. ring.
    + rewrite tail_S, !IH. destruct (Nat.le_gt_cases k n) as [L|L].
      * replace (S (S n) - S k)%nat with (S (n - k)) by lia. rewrite tail_S.
        replace (S n - k)%nat with (S (n - k)) by lia. replace (S n - S k)%nat with (n - k)%nat by lia. ring.
      * replace (S (S n) - S k)%nat with 0%nat by lia. replace (S n - k)%nat with 0%nat by lia.
        replace (S n - S k)%nat with 0%nat by lia. rewrite !tail_0. ring.
Qed.

Lemma tail_point x : forall n k, (k <= n)%nat -> T n k x - T n (S k) x = C n k * x ^ k * (1 - x) ^ (n - k).
Proof.
  induction n as [|n IH]; intros k H.
  - replace k with 0%nat by lia. cbn. unfold C. cbn. field.
  - destruct k as [|k].
    + rewrite tail_0, tail_S, tail_0. pose proof (IH 0%nat ltac:(lia)) as I. rewrite tail_0 in I.
      assert (F : forall m, C m 0 = 1) by (intros m; unfold C; rewrite Nat.sub_0_r; cbn [fact INR]; field; apply INR_fact_neq_0).
      rewrite F in *. rewrite !Nat.sub_0_r in *. cbn [pow] in *. nra.
    + rewrite !tail_S. pose proof (IH k ltac:(lia)) as I.
      destruct (Nat.eq_dec k n) as [->|Hk].
      * rewrite (tail_many n (S n)) in * by lia. rewrite (tail_many n (S (S n))) by lia.
        rewrite !Nat.sub_diag in *. cbn [pow] in *.
        assert (F : forall m, C m m = 1) by (intros m; unfold C; rewrite Nat.sub_diag; cbn [fact INR]; field; apply INR_fact_neq_0).
        rewrite F in *. nra.
      * pose proof (IH (S k) ltac:(lia)) as J. rewrite <- pascal by lia.
        replace (S n - S k)%nat with (n - k)%nat by lia.
        replace (n - k)%nat with (S (n - S k)) in * by lia. cbn [pow] in *.
        replace (x * T n k x + (1 - x) * T n (S k) x - (x * T n (S k) x + (1 - x) * T n (S (S k)) x))
          with (x * (T n k x - T n (S k) x) + (1 - x) * (T n (S k) x - T n (S (S k)) x)) by ring.
        rewrite I, J. ring.
Qed.

Lemma derivable_tail_S n k x a b : derivable_pt_lim (T n k) x a -> derivable_pt_lim (T n (S k)) x b ->
  derivable_pt_lim (T (S n) (S k)) x (T n k x - T n (S k) x + x * a + (1 - x) * b).
Proof.
  intros Ha Hb.
  assert (H : derivable_pt_lim ((id * T n k) + ((fct_cte 1 - id) * T n (S k)))%F x
     ((1 * T n k x + id x * a) + ((0 - 1) * T n (S k) x + (fct_cte 1 - id)%F x * b))).
  { apply derivable_pt_lim_plus; apply derivable_pt_lim_mult; try assumption; [apply derivable_pt_lim_id|].
    apply derivable_pt_lim_minus; [apply derivable_pt_lim_const|apply derivable_pt_lim_id]. }
  assert (D : (1 * T n k x + id x * a) + ((0 - 1) * T n (S k) x + (fct_cte 1 - id)%F x * b) = T n k x - T n (S k) x + x * a + (1 - x) * b).
  { unfold minus_fct, fct_cte, id. ring. }
  rewrite D in H. exact H.
Qed.
Lemma derivable_tail_0 n x : derivable_pt_lim (T n 0) x 0.
Proof.
  assert (H : derivable_pt_lim (fct_cte 1) x 0) by apply derivable_pt_lim_const.
  now destruct n.
Qed.
Lemma derivable_ext f g x l : (forall y, f y = g y) -> derivable_pt_lim f x l -> derivable_pt_lim g x l.
Proof. intros E H eps He. destruct (H eps He) as [d Hd]. exists d. intros h H1 H2. rewrite <- !E. now apply Hd. Qed.

Lemma tail_deriv x : forall n k, (k <= n)%nat ->
  derivable_pt_lim (T (S n) (S k)) x (INR (S n) * C n k * x ^ k * (1 - x) ^ (n - k)).
Proof.
  induction n as [|n IH]; intros k H.
  - replace k with 0%nat by lia.
    assert (D := derivable_tail_S 0 0 x 0 0 (derivable_tail_0 0 x)).
    assert (E : derivable_pt_lim (T 0 1) x 0) by (apply (derivable_ext (fct_cte 0)); [reflexivity|apply derivable_pt_lim_const]).
    specialize (D E). 
    replace (INR 1 * C 0 0 * x ^ 0 * (1 - x) ^ (0 - 0)) with (T 0 0 x - T 0 1 x + x * 0 + (1 - x) * 0); [exact D|].
    unfold C. cbn. field.
  - assert (Dk : derivable_pt_lim (T (S n) k) x (match k with O => 0 | S j => INR (S n) * C n j * x ^ j * (1 - x) ^ (n - j) end)).
    { destruct k as [|j]; [apply derivable_tail_0|]. apply IH. lia. }
    assert (Dk' : derivable_pt_lim (T (S n) (S k)) x (if (k <=? n)%nat then INR (S n) * C n k * x ^ k * (1 - x) ^ (n - k) else 0)).
    { destruct (Nat.leb_spec k n) as [L|L]; [now apply IH|].
      apply (derivable_ext (fct_cte 0)); [|apply derivable_pt_lim_const]. intros y. rewrite tail_many by lia. reflexivity. }
    pose proof (derivable_tail_S (S n) k x _ _ Dk Dk') as D. rewrite (tail_point x (S n) k H) in D.
    match goal with |- derivable_pt_lim _ _ ?g => match type of D with derivable_pt_lim _ _ ?h => replace g with h; [exact D|] end end.
    clear - H. rewrite (S_INR (S n)). set (N := INR (S n)). clearbody N.
    destruct k as [|j].
    + cbn [Nat.leb]. assert (F : forall m, C m 0 = 1) by (intros m; unfold C; rewrite Nat.sub_0_r; cbn [fact INR]; field; apply INR_fact_neq_0).
      rewrite !F, !Nat.sub_0_r. cbn [pow]. ring.
    + destruct (Nat.leb_spec (S j) n) as [L|L].
      * rewrite <- (pascal n j) by lia. replace (S n - S j)%nat with (n - j)%nat by lia.
        replace (n - j)%nat with (S (n - S j)) by lia. cbn [pow]. ring.
      * assert (j = n) as -> by lia. rewrite !Nat.sub_diag.
        assert (F : forall m, C m m = 1) by (intros m; unfold C; rewrite Nat.sub_diag; cbn [fact INR]; field; apply INR_fact_neq_0).
        rewrite !F. cbn [pow]. ring.
Qed.

Lemma beta_is_cdf a b : (0 < a)%nat -> (0 < b)%nat -> unit_cdf (beta_cdf a b).
Proof.
  intros Ha Hb. unfold beta_cdf. destruct a as [|a]; [lia|]. split; [apply tail_at0|]. split; [apply tail_at1; lia|].
  intros x y H1 H2 H3. now apply tail_mono.
Qed.
Lemma beta_density a b x :
  derivable_pt_lim (beta_cdf (S a) (S b)) x
    (INR (fact (a + b + 1)) / (INR (fact a) * INR (fact b)) * x ^ a * (1 - x) ^ b).
Proof.
  unfold beta_cdf. replace (S a + S b - 1)%nat with (S (a + b)) by lia.
  pose proof (tail_deriv x (a + b) a ltac:(lia)) as H. replace (a + b - a)%nat with b in H by lia.
  replace (INR (fact (a + b + 1)) / (INR (fact a) * INR (fact b))) with (INR (S (a + b)) * C (a + b) a); [exact H|].
  unfold C. replace (a + b - a)%nat with b by lia. replace (a + b + 1)%nat with (S (a + b)) by lia.
  rewrite fact_simpl, mult_INR. field. split; apply INR_fact_neq_0.
Qed.
Lemma beta_symmetric a x : (0 < a)%nat -> beta_cdf a a (1 - x) = 1 - beta_cdf a a x.
Proof. intros H. unfold beta_cdf. rewrite tail_sym. now replace (S (a + a - 1) - a)%nat with a by lia. Qed.

(** ** bounded_sigmoid *)
Lemma unit_position x_min x_max x : x_min < x_max ->
  let x_b := bound_value ltR (Some x_min) (Some x_max) x in
  0 <= (x_b - x_min) / (x_max - x_min) <= 1.
Proof.
  intros H x_b.
  assert (W : within Rle (Some x_min) (Some x_max) x_b).
  { apply (bound_in_range R_order). intros l u [= <-] [= <-]. lra. }
  destruct W as [W1 W2]. pose proof (W1 _ eq_refl). pose proof (W2 _ eq_refl).
  split; [apply Rmult_le_pos; [lra|]; left; apply Rinv_0_lt_compat; lra|].
  apply (Rmult_le_reg_r (x_max - x_min)); [lra|]. unfold Rdiv. rewrite Rmult_assoc, Rinv_l by lra. lra.
Qed.
Lemma bounded_low x_min x_max x : x_min < x_max -> x <= x_min -> bound_value ltR (Some x_min) (Some x_max) x = x_min.
Proof.
  intros H H1. unfold bound_value, py_max, py_min, ltR. destruct (Rlt_dec x_min x); [lra|]. destruct (Rlt_dec x_min x_max); lra.
Qed.
Lemma bounded_high x_min x_max x : x_min < x_max -> x_max <= x -> bound_value ltR (Some x_min) (Some x_max) x = x_max.
Proof.
  intros H H1. unfold bound_value, py_max, py_min, ltR. destruct (Rlt_dec x_min x); [|lra]. destruct (Rlt_dec x x_max); lra.
Qed.
Lemma bounded_mid x_min x_max x : x_min <= x <= x_max -> bound_value ltR (Some x_min) (Some x_max) x = x.
Proof.
  intros H. unfold bound_value, py_max, py_min, ltR. destruct (Rlt_dec x_min x); destruct (Rlt_dec _ x_max); lra.
Qed.

Lemma sigmoid_spec cdf x_min x_max : unit_cdf cdf -> x_min < x_max ->
  let f := bounded_sigmoid cdf x_min x_max true in
  (forall x, 0 <= f x <= 1) /\ (forall x, x <= x_min -> f x = 0) /\ (forall x, x_max <= x -> f x = 1) /\
  (forall x y, x <= y -> f x <= f y) /\
  (forall x, bounded_sigmoid cdf x_min x_max false x = 1 - f x).
Proof.
  intros (Z & O & M) H f.
  assert (Hm : forall x y, x <= y -> f x <= f y).
  { intros x y Hxy. unfold f, bounded_sigmoid. pose proof (unit_position x_min x_max x H) as Hx.
    pose proof (unit_position x_min x_max y H) as Hy. cbn zeta in *. apply M; [tauto| |tauto].
    apply Rmult_le_compat_r; [left; apply Rinv_0_lt_compat; lra|].
    pose proof (bound_mono R_order (Some x_min) (Some x_max) x y Hxy). lra. }
  assert (H0 : forall x, x <= x_min -> f x = 0).
  { intros x Hx. unfold f, bounded_sigmoid. rewrite bounded_low by assumption. rewrite <- Z. f_equal. unfold Rdiv. ring. }
  assert (H1 : forall x, x_max <= x -> f x = 1).
  { intros x Hx. unfold f, bounded_sigmoid. rewrite bounded_high by assumption. rewrite <- O. f_equal. field. lra. }
  split; [|auto]. intros x. split.
  - destruct (Rle_dec x x_min) as [L|L]; [rewrite H0 by exact L; lra|].
    rewrite <- (H0 x_min) by lra. apply Hm. lra.
  - destruct (Rle_dec x_max x) as [L|L]; [rewrite H1 by exact L; lra|].
    rewrite <- (H1 x_max) by lra. apply Hm. lra.
Qed.
Lemma sigmoid_symmetric a x_min x_max t : (0 < a)%nat -> x_min < x_max -> 0 <= t <= (x_max - x_min) / 2 ->
  let mid := (x_min + x_max) / 2 in
  bounded_sigmoid (beta_cdf a a) x_min x_max true (mid + t) =
  1 - bounded_sigmoid (beta_cdf a a) x_min x_max true (mid - t).
Proof.
  intros Ha H Ht mid. unfold bounded_sigmoid, mid. rewrite !bounded_mid by lra. rewrite <- beta_symmetric by exact Ha.
  f_equal. field. lra.
Qed.
Lemma sigmoid_linear x_min x_max x : x_min < x_max -> x_min <= x <= x_max ->
  bounded_sigmoid (beta_cdf 1 1) x_min x_max true x = (x - x_min) / (x_max - x_min).
Proof. intros H Hx. unfold bounded_sigmoid. rewrite bounded_mid by exact Hx. unfold beta_cdf. cbn. ring. Qed.

Local Close Scope R_scope.

(** ** copy_if and series functions in Apply *)
Lemma apply_one src named f d w d' l w' vs :
  run_op (OpApply src [named] f) d w = (Ok (d', l), w') -> ~ In named (df_cols d) ->
  (forall sel out, select_cols d src = Ok sel -> f sel = Ok out ->
     length vs = df_len d /\ exists c, out = mkDf [c] (combine (df_index d) (map (fun v => [v]) vs))) ->
  adds_column d d' named vs /\ l = [] /\ w' = w.
Proof.
  cbn [run_op]. intros H Hn Hf. apply bindM_ok in H. destruct H as (r & w1 & H1 & H). injection H as <- <- <-.
  mstep H1. apply lift_ok in H1, E. destruct H1 as [H1 ->], E as [E ->].
  unfold apply_output in E. apply bind_ok in E. destruct E as (sel & Es & E).
  apply bind_ok in E. destruct E as (out & Eo & E). destruct (Hf _ _ Es Eo) as (L & c & ->).
  cbn in E. injection E as <-. split; [|auto].
  eapply column_adds; [|exact H1|exact Hn]. unfold column. now rewrite L, Nat.eqb_refl.
Qed.

Lemma combine_cells {A B} (f : A -> B) (g : A -> val) (l : list A) :
  combine (map f l) (map (fun v => [v]) (map g l)) = map (fun r => (f r, [g r])) l.
Proof. induction l as [|x l IH]; cbn; [reflexivity|]. now rewrite IH. Qed.

Lemma copy_if_out d c s sel out : select_cols d [c; s] = Ok sel -> copy_if sel = Ok out ->
  (forall row, In row (df_rows d) -> exists b, cell (df_cols d) (snd row) c = VBool b) /\
  out = mkDf ["result"%string] (combine (df_index d)
          (map (fun v => [v]) (map (fun row => if val_eqb (cell (df_cols d) (snd row) c) (VBool true)
                                               then cell (df_cols d) (snd row) s else VNA) (df_rows d)))).
Proof.
  intros H. apply select_cols_cells in H. destruct H as [Hc Hr]. unfold copy_if. rewrite Hc.
  intros H. apply bind_ok in H. destruct H as (cond & E1 & H). apply bind_ok in H. destruct H as (src & E2 & H).
  assert (Hcs : c <> s).
  { intros ->. unfold get_col in E1. rewrite Hc in E1. unfold col_pos in E1. cbn [find_col filter length] in E1.
    rewrite !keqb_refl in E1. discriminate. }
  apply get_col_cells in E1, E2. rewrite Hc, Hr in E1, E2. rewrite map_map in E1, E2. cbn [fst snd cell map] in E1, E2.
  rewrite String.eqb_refl in E1. rewrite String.eqb_refl in E2.
  replace (String.eqb s c) with false in E2 by (symmetry; apply String.eqb_neq; congruence).
  destruct (forallb _ cond) eqn:F; [|destruct (existsb _ cond); discriminate]. injection H as <-. split.
  - intros row Hi. rewrite forallb_forall in F.
    specialize (F (fst row, cell (df_cols d) (snd row) c)). rewrite E1 in F.
    assert (Hx : In (fst row, cell (df_cols d) (snd row) c) (map (fun x => (fst x, cell (df_cols d) (snd x) c)) (df_rows d)))
      by (apply in_map_iff; eauto).
    specialize (F Hx). cbn in F. destruct (cell (df_cols d) (snd row) c); try discriminate. eauto.
  - f_equal. unfold df_index. rewrite combine_cells, E1, E2. clear.
    induction (df_rows d) as [|row rows IH]; cbn [map combine]; [reflexivity|]. now rewrite IH.
Qed.

Lemma copy_if_applied c s n d w d' l w' :
  run_op (OpApply [c; s] [n] copy_if) d w = (Ok (d', l), w') -> ~ In n (df_cols d) ->
  adds_column d d' n (map (fun row => if val_eqb (cell (df_cols d) (snd row) c) (VBool true)
                                      then cell (df_cols d) (snd row) s else VNA) (df_rows d)) /\ l = [] /\ w' = w.
Proof.
  intros H Hn. eapply apply_one; [exact H|exact Hn|]. intros sel out E1 E2.
  destruct (copy_if_out _ _ _ _ _ E1 E2) as [_ ->]. split; [now rewrite map_length|eauto].
Qed.

Lemma copy_if_refuses c s n d w : rectangular d -> In c (df_cols d) -> In s (df_cols d) -> c <> s -> df_rows d <> [] ->
  (forall row b, In row (df_rows d) -> cell (df_cols d) (snd row) c <> VBool b) ->
  run_op (OpApply [c; s] [n] copy_if) d w = (Err ValueError, w).
Proof.
  intros [N R] Hc Hs Hcs Hne Hb. cbn [run_op]. unfold transformed, bindM, lift, apply_output.
  rewrite select_cols_runs by (auto; intros x [<-|[<-|[]]]; assumption). cbn [bind].
  assert (E : copy_if (mkDf [c; s] (map (fun row => (fst row, map (cell (df_cols d) (snd row)) [c; s])) (df_rows d))) = Err ValueError).
  { unfold copy_if. cbn [df_cols].
    assert (N2 : NoDup [c; s]) by (repeat constructor; cbn; intuition congruence).
    set (d2 := mkDf [c; s] _).
    assert (R2 : rectangular d2).
    { split; [exact N2|]. intros row Hr. cbn in Hr. apply in_map_iff in Hr. destruct Hr as (r & <- & _). reflexivity. }
    rewrite !(get_col_runs d2) by (auto; cbn; tauto). cbn [bind].
    assert (Hall : forall row, In row (df_rows d2) -> forall b, cell (df_cols d2) (snd row) c <> VBool b).
    { intros row Hr b. cbn in Hr. apply in_map_iff in Hr. destruct Hr as (r & <- & Hr). cbn. rewrite String.eqb_refl. now apply Hb. }
    assert (Hne2 : df_rows d2 <> []) by (cbn; destruct (df_rows d); [tauto|discriminate]).
    clearbody d2. destruct (df_rows d2) as [|r0 rows] eqn:Er; [tauto|].
    replace (forallb _ _) with false.
    - replace (existsb _ _) with false; [reflexivity|]. symmetry. apply not_true_is_false. intros X. apply existsb_exists in X.
      destruct X as (kv & Hk & X). apply in_map_iff in Hk. destruct Hk as (r & <- & Hr). cbn in X.
      pose proof (Hall r Hr). destruct (cell (df_cols d2) (snd r) c); try discriminate. now apply (H b).
    - symmetry. cbn [map forallb snd]. pose proof (Hall r0 (or_introl eq_refl)) as H.
      destruct (cell (df_cols d2) (snd r0) c); try reflexivity. now destruct (H b). }
  rewrite E. reflexivity.
Qed.

Lemma series_applied src n f d w d' l w' :
  run_op (OpApply src [n] (series_f f)) d w = (Ok (d', l), w') -> ~ In n (df_cols d) ->
  adds_column d d' n (f (map (fun c => map (fun row => cell (df_cols d) (snd row) c) (df_rows d)) src)) /\ l = [] /\ w' = w.
Proof.
  intros H Hn. eapply apply_one; [exact H|exact Hn|]. intros sel out E1 E2.
  apply select_cols_cells in E1. destruct E1 as [Hc Hr]. unfold series_f in E2. rewrite Hc, Hr in E2.
  assert (E : map (fun c => map (fun r : val * list val => nth c (snd r) VNA)
       (map (fun row : val * list val => (fst row, map (cell (df_cols d) (snd row)) src)) (df_rows d))) (seq 0 (length src)) =
     map (fun c => map (fun row => cell (df_cols d) (snd row) c) (df_rows d)) src).
  { apply nth_ext with (d := []) (d' := []); [now rewrite !map_length, seq_length|]. intros i Hi.
    rewrite map_length, seq_length in Hi.
    rewrite (nth_indep _ _ (map (fun r : val * list val => nth 0 (snd r) VNA)
       (map (fun row : val * list val => (fst row, map (cell (df_cols d) (snd row)) src)) (df_rows d))))
      by now rewrite map_length, seq_length.
    rewrite (map_nth (fun c => map (fun r : val * list val => nth c (snd r) VNA) _)).
    rewrite seq_nth by exact Hi. cbn [plus].
    rewrite (nth_indep (map _ src) _ (map (fun row => cell (df_cols d) (snd row) ""%string) (df_rows d))) by now rewrite map_length.
    rewrite (map_nth (fun c => map (fun row => cell (df_cols d) (snd row) c) (df_rows d))).
    rewrite map_map. apply map_ext. intros row. cbn [snd].
    rewrite (nth_indep _ _ (cell (df_cols d) (snd row) ""%string)) by now rewrite map_length.
    apply (map_nth (cell (df_cols d) (snd row))). }
  rewrite E in E2. destruct (Nat.eqb_spec (length (f (map (fun c => map (fun row => cell (df_cols d) (snd row) c) (df_rows d)) src))) (df_len sel)) as [L|]; [|discriminate].
  injection E2 as <-. unfold df_len in *. rewrite Hr, map_length in L. split; [exact L|].
  exists "result"%string. f_equal. f_equal. unfold df_index. rewrite Hr, map_map. reflexivity.
Qed.

(** Apply with f_args="dataframe" *)
Lemma frame_applied src named f d w d' l w' :
  run_op (OpApply src named f) d w = (Ok (d', l), w') ->
  exists out, f (mkDf src (map (fun row => (fst row, map (cell (df_cols d) (snd row)) src)) (df_rows d))) = Ok out /\ l = [] /\ w' = w /\
    (length (df_cols out) = length named -> (forall c, In c named -> ~ In c (df_cols d)) ->
     df_cols d' = df_cols d ++ named /\ NoDup (map fst (df_rows out)) /\
     Forall2 (fun row row' => fst row' = fst row /\
       exists extra, snd row' = snd row ++ extra /\
         (In (fst row, extra) (df_rows out) \/ ~ In (fst row) (map fst (df_rows out)) /\ extra = repeat VNA (length named))) (df_rows d) (df_rows d')).
Proof.
  assert (R : forall cols named, length cols = length named -> rename_first cols named = named).
  { clear. induction cols as [|c cols IH]; intros [|n named] H; cbn in *; try discriminate; [reflexivity|]. f_equal. apply IH. now injection H. }
  cbn [run_op]. intros H. apply bindM_ok in H. destruct H as (r & w1 & H1 & H). injection H as <- <- <-.
  mstep H1. apply lift_ok in H1, E. destruct H1 as [H1 ->], E as [E ->].
  unfold apply_output in E. apply bind_ok in E. destruct E as (sel & Es & E).
  apply bind_ok in E. destruct E as (out & Eo & E).
  assert (Esel : sel = mkDf src (map (fun row => (fst row, map (cell (df_cols d) (snd row)) src)) (df_rows d))).
  { apply select_cols_cells in Es as [E1 E2]. destruct sel as [cs rs]. cbn in *. now subst. }
  subst sel. exists out. split; [exact Eo|]. split; [reflexivity|]. split; [reflexivity|]. intros Hn Hf.
  destruct (nodupb (df_cols out)); [|discriminate]. cbn in E. injection E as <-. rewrite (R _ _ Hn) in H1.
  unfold add_columns in H1. apply merge_index_ok in H1. cbn [df_cols df_rows] in H1. destruct H1 as (_ & Nr & Hc & kept & Hs & Hl & HF).
  split; [rewrite Hc, !map_suffixed_fresh; [reflexivity| |]; intros c H1 H2; eapply Hf; eauto|]. split; [exact Nr|].
  rewrite Hl in HF by reflexivity. eapply Forall2_weaken; [|exact HF]. intros row row' [E (extra & Ee & Hx)]. split; [exact E|].
  exists extra. split; [exact Ee|]. destruct Hx as [Hx|[Hx ->]].
  - left. now apply dget_In.
  - right. split; [|reflexivity]. intros Hi. apply in_map_iff in Hi as ([k v] & Ek & Hi). cbn in Ek. subst k.
    apply In_dget in Hi; [congruence|exact Nr].
Qed.
