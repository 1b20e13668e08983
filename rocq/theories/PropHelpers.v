(** Properties of the functions usable in Apply (C67, C68, C92-C94). *)
From Coq Require Import Reals Lra.
From Verif Require Import Base BaseFacts Rng Utils Relationship Frame Gens Clock Attribute World Story Ops Fs Circus
  SpecStory SpecOps SpecWorld SpecHelpers Helpers HelpersFacts Samples StorySamples PropOps.

(** ** C67.  bound_value, for every totally ordered type of values. *)
Theorem C67_in_range {A} (le : A -> A -> Prop) (lt : A -> A -> bool) lb ub v : order le lt ->
  (forall l u, lb = Some l -> ub = Some u -> le l u) ->
  within le lb ub (bound_value lt lb ub v).
Proof. intros O. exact (bound_in_range O lb ub v). Qed.
Print Assumptions C67_in_range.

(** The value is unchanged when it lies between the bounds (equal to it, in the sense of the
    order, when it lies on one). *)
Theorem C67_identity_inside {A} (le : A -> A -> Prop) (lt : A -> A -> bool) lb ub v : order le lt ->
  within le lb ub v -> le (bound_value lt lb ub v) v /\ le v (bound_value lt lb ub v).
Proof. intros O. exact (bound_inside_le O lb ub v). Qed.
Print Assumptions C67_identity_inside.

Theorem C67_same_object_inside {A} (le : A -> A -> Prop) (lt : A -> A -> bool) lb ub v : order le lt ->
  strictly_within lt lb ub v -> bound_value lt lb ub v = v.
Proof. intros _. exact (bound_inside lb ub v). Qed.
Print Assumptions C67_same_object_inside.

Theorem C67_value_or_bound {A} (le : A -> A -> Prop) (lt : A -> A -> bool) lb ub v : order le lt ->
  bound_value lt lb ub v = v \/ lb = Some (bound_value lt lb ub v) \/ ub = Some (bound_value lt lb ub v).
Proof. intros _. exact (bound_one_of lb ub v). Qed.
Print Assumptions C67_value_or_bound.

Theorem C67_monotone {A} (le : A -> A -> Prop) (lt : A -> A -> bool) lb ub v v' : order le lt ->
  le v v' -> le (bound_value lt lb ub v) (bound_value lt lb ub v').
Proof. intros O. exact (bound_mono O lb ub v v'). Qed.
Print Assumptions C67_monotone.

Theorem C67_idempotent {A} (le : A -> A -> Prop) (lt : A -> A -> bool) lb ub v : order le lt ->
  bound_value lt lb ub (bound_value lt lb ub v) = bound_value lt lb ub v.
Proof. intros O. exact (bound_twice lb ub v). Qed.
Print Assumptions C67_idempotent.

(** With crossed bounds the upper one wins. *)
Theorem C67_crossed_bounds {A} (le : A -> A -> Prop) (lt : A -> A -> bool) l u v : order le lt -> le u l ->
  le (bound_value lt (Some l) (Some u) v) u /\ le u (bound_value lt (Some l) (Some u) v).
Proof. intros O. exact (bound_upper_wins O l u v). Qed.
Print Assumptions C67_crossed_bounds.

Theorem C67_numbers_are_ordered : order Qle ltQ /\ order Rle ltR.
Proof. exact (conj Q_order R_order). Qed.
Print Assumptions C67_numbers_are_ordered.

Example C67_example : within Qle (Some (10 # 1)%Q) (Some (15 # 1)%Q) (25 # 2)%Q /\
  bound_value ltQ (Some (10 # 1)%Q) (Some (15 # 1)%Q) (25 # 2)%Q = (25 # 2)%Q /\
  bound_value ltQ (Some (10 # 1)%Q) (Some (15 # 1)%Q) (3 # 1)%Q = (10 # 1)%Q /\
  bound_value ltQ (Some (10 # 1)%Q) (Some (15 # 1)%Q) (31 # 2)%Q = (15 # 1)%Q /\
  bound_value ltQ None (Some (15 # 1)%Q) (-3 # 1)%Q = (-3 # 1)%Q.
Proof. split; [split; intros ? [= <-]; vm_compute; discriminate|]. vm_compute. auto. Qed.

(** ** C68.  logistic *)
Theorem C68_logistic_range (k x0 L x : R) : (0 < L)%R ->
  (0 < logistic k x0 L x < L)%R /\ (L / (1 + exp 10) <= logistic k x0 L x)%R.
Proof. exact (logistic_range k x0 L x). Qed.
Print Assumptions C68_logistic_range.

Theorem C68_logistic_increasing (k x0 L x y : R) : (0 < L)%R -> (0 <= k)%R -> (x <= y)%R ->
  (logistic k x0 L x <= logistic k x0 L y)%R.
Proof. intros HL Hk H. apply logistic_mono; [exact HL|]. apply Rmult_le_pos; lra. Qed.
Print Assumptions C68_logistic_increasing.

Theorem C68_logistic_decreasing (k x0 L x y : R) : (0 < L)%R -> (k <= 0)%R -> (x <= y)%R ->
  (logistic k x0 L y <= logistic k x0 L x)%R.
Proof.
  intros HL Hk H. apply logistic_mono; [exact HL|].
  replace (k * (x - y))%R with ((- k) * (y - x))%R by ring. apply Rmult_le_pos; lra.
Qed.
Print Assumptions C68_logistic_decreasing.

Theorem C68_logistic_midpoint (k x0 L : R) : logistic k x0 L x0 = (L / 2)%R.
Proof. exact (logistic_mid k x0 L). Qed.
Print Assumptions C68_logistic_midpoint.

Example C68_example : (0 < logistic (-1 / 100) 1000 1 250 < 1)%R /\
  (logistic (-1 / 100) 1000 1 1000 <= logistic (-1 / 100) 1000 1 250)%R /\ logistic (-1 / 100) 1000 1 1000 = (1 / 2)%R.
Proof.
  split; [apply C68_logistic_range; lra|]. split; [apply C68_logistic_decreasing; lra|]. apply C68_logistic_midpoint.
Qed.

(** ** C92.  bounded_sigmoid, for every distribution function on [0,1]. *)
Theorem C92_bounded_sigmoid (cdf : R -> R) (x_min x_max : R) : unit_cdf cdf -> (x_min < x_max)%R ->
  let f := bounded_sigmoid cdf x_min x_max true in
  (forall x, 0 <= f x <= 1)%R /\ (forall x, (x <= x_min)%R -> f x = 0%R) /\ (forall x, (x_max <= x)%R -> f x = 1%R) /\
  (forall x y, (x <= y)%R -> (f x <= f y)%R) /\
  (forall x, bounded_sigmoid cdf x_min x_max false x = (1 - f x)%R).
Proof. exact (sigmoid_spec cdf x_min x_max). Qed.
Print Assumptions C92_bounded_sigmoid.

(** The beta distribution of every positive integer shape is one: its derivative is the density
    of Beta(a,b), and it goes from 0 to 1. *)
Theorem C92_beta_is_cdf (a b : nat) : 0 < a -> 0 < b -> unit_cdf (beta_cdf a b).
Proof. exact (beta_is_cdf a b). Qed.
Print Assumptions C92_beta_is_cdf.

Theorem C92_beta_density (a b : nat) (x : R) :
  derivable_pt_lim (beta_cdf (S a) (S b)) x
    (INR (fact (a + b + 1)) / (INR (fact a) * INR (fact b)) * x ^ a * (1 - x) ^ b)%R.
Proof. exact (beta_density a b x). Qed.
Print Assumptions C92_beta_density.

Theorem C92_symmetric (shape : nat) (x_min x_max t : R) : 0 < shape -> (x_min < x_max)%R ->
  (0 <= t <= (x_max - x_min) / 2)%R ->
  let mid := ((x_min + x_max) / 2)%R in
  bounded_sigmoid (beta_cdf shape shape) x_min x_max true (mid + t) =
  (1 - bounded_sigmoid (beta_cdf shape shape) x_min x_max true (mid - t))%R.
Proof. exact (sigmoid_symmetric shape x_min x_max t). Qed.
Print Assumptions C92_symmetric.

Theorem C92_shape_one_is_linear (x_min x_max x : R) : (x_min < x_max)%R -> (x_min <= x <= x_max)%R ->
  bounded_sigmoid (beta_cdf 1 1) x_min x_max true x = ((x - x_min) / (x_max - x_min))%R.
Proof. exact (sigmoid_linear x_min x_max x). Qed.
Print Assumptions C92_shape_one_is_linear.

Example C92_example : unit_cdf (beta_cdf 5 5) /\ bounded_sigmoid (beta_cdf 5 5) 2 15 true 1 = 0%R /\
  bounded_sigmoid (beta_cdf 5 5) 2 15 false 20 = 0%R /\ bounded_sigmoid (beta_cdf 5 5) 2 15 true (17 / 2) = (1 / 2)%R.
Proof.
  assert (U : unit_cdf (beta_cdf 5 5)) by (apply C92_beta_is_cdf; lia).
  assert (H : (2 < 15)%R) by lra.
  destruct (C92_bounded_sigmoid _ 2 15 U H) as (_ & H0 & H1 & _ & Hd). cbv zeta in *.
  split; [exact U|]. split; [apply H0; lra|]. split; [rewrite Hd, H1 by lra; lra|].
  pose proof (C92_symmetric 5 2 15 0 ltac:(lia) H ltac:(lra)) as S. cbv zeta in S.
  replace (17 / 2)%R with ((2 + 15) / 2 + 0)%R by lra. 
  replace ((2 + 15) / 2 - 0)%R with ((2 + 15) / 2 + 0)%R in S by lra. lra.
Qed.

(** ** C93.  copy_if in an Apply: the source where the condition holds, NA elsewhere. *)
Theorem C93_copy_if condition source named d w d' l w' :
  run_op (OpApply [condition; source] [named] copy_if) d w = (Ok (d', l), w') -> ~ In named (df_cols d) ->
  adds_column d d' named
    (map (fun row => if val_eqb (cell (df_cols d) (snd row) condition) (VBool true)
                     then cell (df_cols d) (snd row) source else VNA) (df_rows d)) /\ l = [] /\ w' = w.
Proof. exact (copy_if_applied condition source named d w d' l w'). Qed.
Print Assumptions C93_copy_if.

(** The order given in its documentation (source field, then condition field) raises ValueError
    unless the source is boolean. *)
Theorem C93_documented_order_refuted : exists d w source condition named,
  rectangular d /\ In source (df_cols d) /\
  (forall row, In row (df_rows d) -> exists b, cell (df_cols d) (snd row) condition = VBool b) /\
  run_op (OpApply [source; condition] [named] copy_if) d w = (Err ValueError, w).
Proof.
  exists visitors, market, "N"%string, "OUT"%string, "copied"%string.
  split; [exact visitors_rect|]. split; [cbn; tauto|]. split.
  - intros row H. cbn in H. repeat (destruct H as [<-|H]; [cbn; eauto|]). contradiction.
  - apply copy_if_refuses; [exact visitors_rect|cbn; tauto|cbn; tauto|discriminate|discriminate|].
    intros row b H. cbn in H. repeat (destruct H as [<-|H]; [cbn; discriminate|]). contradiction.
Qed.
Print Assumptions C93_documented_order_refuted.

Example C93_example :
  exists d l w', run_op (OpApply ["OUT"; "N"]%string ["copied"]%string copy_if) visitors market = (Ok (d, l), w') /\
    map snd (df_rows d) = [[s_ "A"; vz 2; VBool true; vz 2]; [s_ "C"; vz 1; VBool false; VNA]; [s_ "B"; vz 3; VBool false; VNA]].
Proof. run_example. vm_compute. reflexivity. Qed.

(** ** C94.  Apply with f_args="series": the new column is f of the source columns. *)
Theorem C94_apply_series src named f d w d' l w' :
  run_op (OpApply src [named] (series_f f)) d w = (Ok (d', l), w') -> ~ In named (df_cols d) ->
  adds_column d d' named (f (map (fun c => map (fun row => cell (df_cols d) (snd row) c) (df_rows d)) src)) /\
  l = [] /\ w' = w.
Proof. exact (series_applied src named f d w d' l w'). Qed.
Print Assumptions C94_apply_series.

(** Apply with f_args="dataframe": f is given the source columns; when it returns as many columns as there are names,
    these are the names of the new columns, in order, and each row gets the cells f returned under its label. *)
Theorem C94_apply_frame src named f d w d' l w' :
  run_op (OpApply src named f) d w = (Ok (d', l), w') ->
  exists out, f (mkDf src (map (fun row => (fst row, map (cell (df_cols d) (snd row)) src)) (df_rows d))) = Ok out /\ l = [] /\ w' = w /\
    (length (df_cols out) = length named -> (forall c, In c named -> ~ In c (df_cols d)) ->
     df_cols d' = df_cols d ++ named /\ NoDup (map fst (df_rows out)) /\
     Forall2 (fun row row' => fst row' = fst row /\
       exists extra, snd row' = snd row ++ extra /\
         (In (fst row, extra) (df_rows out) \/ ~ In (fst row) (map fst (df_rows out)) /\ extra = repeat VNA (length named))) (df_rows d) (df_rows d')).
Proof. exact (frame_applied src named f d w d' l w'). Qed.
Print Assumptions C94_apply_frame.

Example C94_example :
  let f := fun cols => map (fun p => match p with (VBool b, v) => if b then v else s_ "in" | _ => VNA end)
                           (combine (nth 0 cols []) (nth 1 cols [])) in
  exists d l w', run_op (OpApply ["OUT"; "PERSON"]%string ["who"]%string (series_f f)) visitors market = (Ok (d, l), w') /\
    map (fun row => last (snd row) VNA) (df_rows d) = [s_ "A"; s_ "in"; s_ "in"].
Proof. intros f. run_example. vm_compute. reflexivity. Qed.

Example C94_frame_example :
  let swap := fun d => Ok (mkDf ["a"; "b"]%string (map (fun row => (fst row, rev (snd row))) (rev (df_rows d)))) in
  exists d l w', run_op (OpApply ["PERSON"; "N"]%string ["count"; "name"]%string swap) visitors market = (Ok (d, l), w') /\
    df_cols d = ["PERSON"; "N"; "OUT"; "count"; "name"]%string /\
    map snd (df_rows d) = [[s_ "A"; vz 2; VBool true; vz 2; s_ "A"]; [s_ "C"; vz 1; VBool false; vz 1; s_ "C"]; [s_ "B"; vz 3; VBool false; vz 3; s_ "B"]].
Proof. intros swap. run_example. split; vm_compute; reflexivity. Qed.
