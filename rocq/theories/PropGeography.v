(** C111-C116: the sample geography. *)
From Verif Require Import Base BaseFacts Rng Utils Relationship SpecRelationship Frame Gens Clock Attribute World Story Ops Fs Circus
  SpecStory SpecWorld SpecPopulation Samples StorySamples Geography SpecGeography GeographyBuild GeographyProps GeographyRepair GeographyTotal StoryProps StoryGap.
From Coq Require Import Permutation Lqa.
Local Open Scope nat_scope.

(** ** C111: what add_uganda_geography(force_build=True) builds *)
Theorem C111_structure src w cells cities w' : add_uganda_geography src true w = (Ok (cells, cities), w') ->
  extends w w' /\
  (exists ids, length ids = 200 /\ members_are w' cells ids) /\
  (exists ids, members_are w' cities ids /\ 1 <= length ids <= 200 /\ forall c, In c ids -> exists k, c = city_names src k) /\
  full_attribute w' cells "latitude" (fun v => exists k, v = latitudes src k) /\
  full_attribute w' cells "longitude" (fun v => exists k, v = longitudes src k) /\
  full_attribute w' cells "HEALTH" (fun v => exists x, v = VNum (beta_1_999 src x)) /\
  full_attribute w' cities "population" (fun v => exists x, v = VNum ((lomax_1_4 src x + 1) * Q2Qc 10000)%Qc) /\
  (exists r rel, relationship_at w' cities "CELLS" r /\ nth_error (w_rels w') r = Some rel /\
     (forall c i, related rel c i -> member w' cities c /\ member w' cells i) /\
     (forall i, member w' cells i -> exists c, related rel c i /\ forall c', related rel c' i -> c' = c)) /\
  dget "cells"%string (w_pop_names w') = Some cells /\ dget "cities"%string (w_pop_names w') = Some cities.
Proof. exact (geography_built src w cells cities w'). Qed.
Print Assumptions C111_structure.

Theorem C111_runs src w : (exists r w', add_uganda_geography src true w = (Ok r, w')) <-> geography_free w.
Proof. exact (geography_runs src w). Qed.
Print Assumptions C111_runs.

(** In particular, when the names are free, for a clock whose step divides the hour and whose
    date is a multiple of the step. *)
Theorem C111_runs_on_grid src w :
  dget "cells"%string (w_pop_names w) = None -> dget "cities"%string (w_pop_names w) = None ->
  (forall a, ~ story_named w "cell_break_down" a) -> (forall a, ~ story_named w "cell_repair_down" a) ->
  (0 < c_step (w_clock w))%Z -> (c_step (w_clock w) | hour)%Z -> (c_step (w_clock w) | c_date (w_clock w))%Z ->
  exists cells cities w', add_uganda_geography src true w = (Ok (cells, cities), w').
Proof.
  intros H1 H2 H3 H4 H5 H6 H7.
  assert (D : forall n, dget n (w_pop_names w) = None -> dmem n (w_pop_names w) = false).
  { intros n Hn. destruct (dmem n (w_pop_names w)) eqn:E; [|reflexivity]. unfold dmem in E. now rewrite Hn in E. }
  assert (N : forall n, (forall a, ~ story_named w n a) -> ~ In n (map st_name (w_stories w))).
  { intros n Hn Hi. apply in_map_iff in Hi as (s & E & Hi). apply In_nth_error in Hi as (a & Ha). apply (Hn a). exists s. auto. }
  destruct (proj2 (geography_runs src w)) as ([cells cities] & w' & E); [|eauto].
  split; [now apply D|]. split; [now apply D|]. split; [now apply uganda_starts|]. split; now apply N.
Qed.
Print Assumptions C111_runs_on_grid.

(** The geography consists of calls of the library: what holds of every circus made by calls
    holds after adding it. *)
Theorem C111_made_of_calls src force_build g w : built g w -> built g (snd (add_uganda_geography src force_build w)).
Proof. apply builds_geography. Qed.
Print Assumptions C111_made_of_calls.

Definition sample_sources : sources :=
  mkSources (fun k => vz (Z.of_nat k)) (fun k => vz (- Z.of_nat k)) (fun k => s_ (if Nat.even k then "Kampala" else "Jinja"))
    (fun x => Q2Qc (1 # (1 + N.succ_pos x))) (fun x => Q2Qc (Z.of_N (x mod 7) # 3)) (fun x => Q2Qc (Z.of_N (x mod 5) # 2)) vz.
Lemma red_nonneg z d : (0 <= z)%Z -> (0 <= this (Q2Qc (z # d)))%Q.
Proof. intros H. unfold Q2Qc. cbn [this]. rewrite Qred_correct. unfold Qle. cbn. lia. Qed.
Lemma sample_positive : positive_laws sample_sources.
Proof. intros x. split; apply red_nonneg, N2Z.is_nonneg. Qed.
Lemma sample_adds : exists cells cities w', add_uganda_geography sample_sources true circus0 = (Ok (cells, cities), w').
Proof.
  apply C111_runs_on_grid; try reflexivity.
  - intros a (s & H & _). now destruct a.
  - intros a (s & H & _). now destruct a.
  - exists 406992%Z. reflexivity.
Qed.
(** Another circus in the same process may not add it twice. *)
Example C111_example : exists cells cities w', add_uganda_geography sample_sources true circus0 = (Ok (cells, cities), w') /\
  (exists ids, length ids = 200 /\ members_are w' cells ids) /\ built stream w' /\
  forall r w2, add_uganda_geography sample_sources true w' <> (Ok r, w2).
Proof.
  destruct sample_adds as (cells & cities & w' & E). exists cells, cities, w'. split; [exact E|].
  destruct (C111_structure _ _ _ _ _ E) as (_ & Hc & H). split; [exact Hc|]. split.
  - assert (B : built stream (snd (add_uganda_geography sample_sources true circus0))) by (apply C111_made_of_calls; apply (built_new stream)).
    now rewrite E in B.
  - intros r w2 H2. destruct (proj1 (C111_runs sample_sources w')) as (F & _); [eauto|].
    destruct H as (_ & _ & _ & _ & _ & _ & Hn & _). unfold dmem in F. now rewrite Hn in F.
Qed.

(** ** C112: the other ways to obtain it *)
Theorem C112_default_refuted src w : add_uganda_geography src false w = (Err TypeError, w).
Proof. exact (geography_default src w). Qed.
Print Assumptions C112_default_refuted.
Theorem C112_others_refuted w n : store_uganda w = (Err TypeError, w) /\ create_random_cells n w = (Err TypeError, w).
Proof. now split. Qed.
Print Assumptions C112_others_refuted.
Example C112_example : geography_free circus0 /\ fst (add_uganda_geography sample_sources false circus0) = Err TypeError.
Proof.
  split; [|reflexivity]. apply (C111_runs sample_sources). destruct sample_adds as (c & d & w' & E). eauto.
Qed.

(** ** C113: cell_status tells the levels *)
Theorem C113_log_is_health src w cells cities w' name a hh l logs w2 : add_uganda_geography src true w = (Ok (cells, cities), w') ->
  (name = "cell_break_down" \/ name = "cell_repair_down")%string -> story_named w' name a -> attribute_at w' cells "HEALTH" hh ->
  execute a (after w' l) = (Ok logs, w2) ->
  exists rows, logs = match rows with [] => [] | _ => [("cell_status"%string, mkDf ["TIME"; "CELL_ID"; "NEW_HEALTH_LEVEL"]%string rows)] end /\
    NoDup (map fst rows) /\ (forall i, In i (map fst rows) <-> acts_now (after w' l) a i) /\ Forall (status_line src (after w' l)) rows /\
    forall k v, holds w2 hh k v <-> (exists t, In (k, [t; k; v]) rows) \/ ~ acts_now (after w' l) a k /\ holds (after w' l) hh k v.
Proof. exact (geography_status src w cells cities w' name a hh l logs w2). Qed.
Print Assumptions C113_log_is_health.

(** ** C114: every cell breaks down within any 24 hours *)
Theorem C114_daily_break_down src w cells cities w' b i n l1 w1 l2 w2 : add_uganda_geography src true w = (Ok (cells, cities), w') -> positive_laws src ->
  story_named w' "cell_break_down" b -> member w' cells i -> day_of_steps w n ->
  history w' l1 w1 -> history w1 l2 w2 -> nobody_reschedules w' b (l1 ++ l2) -> n <= executions b l2 ->
  exists k, k < n /\ acts_at b i w1 l2 k.
Proof. exact (geography_breaks src w cells cities w' b i n l1 w1 l2 w2). Qed.
Print Assumptions C114_daily_break_down.

(** Neither the geography nor a story that was there before reschedules it. *)
Theorem C114_nobody src w cells cities w' b l : add_uganda_geography src true w = (Ok (cells, cities), w') -> story_named w' "cell_break_down" b ->
  (forall c s o, nth_error (w_stories w) c = Some s -> In o (st_ops s) -> reschedules b o = false) ->
  (forall h, In h l -> match h with HForce c _ | HReset c _ | HTick c _ => c <> b | _ => True end) -> nobody_reschedules w' b l.
Proof. exact (geography_nobody src w cells cities w' b l). Qed.
Print Assumptions C114_nobody.

(** ** C115: break-downs are repaired within 24 hours, and repairs follow break-downs *)
Theorem C115_repaired src w cells cities w' b r i n l0 w1 w2 l w3 : add_uganda_geography src true w = (Ok (cells, cities), w') -> positive_laws src ->
  story_named w' "cell_break_down" b -> story_named w' "cell_repair_down" r -> member w' cells i -> day_of_steps w n ->
  history w' l0 w1 -> acts_now w1 b i -> happen (HExec b) w1 = (Ok tt, w2) -> history w2 l w3 -> rescheduled_only_by b w' r (l0 ++ l) ->
  exists d, d < n /\ counter w2 r i (Some (Z.of_nat d)) /\
    ((forall k, ~ acts_at b i w2 l k) -> forall k, acts_at r i w2 l k <-> k = d /\ d < executions r l).
Proof. exact (geography_repaired src w cells cities w' b r i n l0 w1 w2 l w3). Qed.
Print Assumptions C115_repaired.

Theorem C115_repair_cause src w cells cities w' b r i n l w1 : add_uganda_geography src true w = (Ok (cells, cities), w') -> positive_laws src ->
  story_named w' "cell_break_down" b -> story_named w' "cell_repair_down" r -> member w' cells i -> day_of_steps w n ->
  history w' l w1 -> rescheduled_only_by b w' r l -> acts_now w1 r i ->
  exists l1 l2 wx wy, l = l1 ++ HExec b :: l2 /\ history w' l1 wx /\ acts_now wx b i /\ happen (HExec b) wx = (Ok tt, wy) /\
       history wy l2 w1 /\ forall k, ~ acts_at r i wy l2 k.
Proof. exact (geography_repair_cause src w cells cities w' b r i n l w1). Qed.
Print Assumptions C115_repair_cause.

(** ** C116: its stories never raise *)
Theorem C116_never_raises src w cells cities w' b r l : add_uganda_geography src true w = (Ok (cells, cities), w') ->
  story_named w' "cell_break_down" b -> story_named w' "cell_repair_down" r -> (second <= c_step (w_clock w))%Z ->
  Forall (fun x => x = HExec b \/ x = HExec r \/ x = HClock) l -> exists w1, history w' l w1.
Proof. exact (geography_history src w cells cities w' b r l). Qed.
Print Assumptions C116_never_raises.

(** A circus with the geography only, with one hour per step, runs for any number of steps; in
    every 24 of them each of the 200 cells breaks down, and a repair of it follows. *)
Definition geo_steps (n : nat) : list happening := concat (repeat [HExec 0; HExec 1; HClock] n).
Lemma geo_steps_are n : Forall (fun x => x = HExec 0 \/ x = HExec 1 \/ x = HClock) (geo_steps n).
Proof. induction n as [|n IH]; [constructor|]. unfold geo_steps. cbn [repeat concat]. apply Forall_app. split; [|exact IH]. repeat (constructor; [solve [auto]|]). constructor. Qed.
Lemma geo_steps_executions n a : a = 0 \/ a = 1 -> executions a (geo_steps n) = n.
Proof.
  intros Ha. induction n as [|n IH]; [reflexivity|]. unfold geo_steps in *. cbn [repeat concat app executions].
  rewrite IH. destruct Ha as [-> | ->]; cbn; lia.
Qed.
Lemma geo_untouched a n : untouched a (geo_steps n).
Proof. intros h Hh. pose proof (proj1 (Forall_forall _ _) (geo_steps_are n) h Hh) as [-> |[-> | ->]]; exact I. Qed.

Example C114_example : exists cells cities w', add_uganda_geography sample_sources true circus0 = (Ok (cells, cities), w') /\
  (exists ids, length ids = 200 /\ members_are w' cells ids) /\
  forall m, exists w1, history w' (geo_steps m) w1 /\ forall i, member w' cells i -> exists k, k < 24 /\ acts_at 0 i w1 (geo_steps 24) k.
Proof.
  destruct sample_adds as (cells & cities & w' & E). exists cells, cities, w'. split; [exact E|].
  destruct (C111_structure _ _ _ _ _ E) as (_ & Hc & _). split; [exact Hc|]. intros m.
  destruct (geography_named _ _ _ _ _ E) as [Nb Nr]. change (length (w_stories circus0)) with 0 in *.
  assert (Hs : (second <= c_step (w_clock circus0))%Z) by (vm_compute; discriminate).
  destruct (C116_never_raises _ _ _ _ _ 0 1 (geo_steps m ++ geo_steps 24) E Nb Nr Hs) as (w2 & H); [apply Forall_app; split; apply geo_steps_are|].
  apply history_app in H as (w1 & H1 & H2).
  exists w1. split; [exact H1|]. intros i Hi.
  apply (C114_daily_break_down _ _ _ _ _ 0 i 24 (geo_steps m) w1 (geo_steps 24) w2 E sample_positive Nb Hi eq_refl H1 H2).
  - apply (C114_nobody _ _ _ _ _ 0 _ E Nb); [intros c s o Hc'; now destruct c|]. intros h Hh. apply in_app_or in Hh as [Hh|Hh]; now apply (geo_untouched 0) in Hh.
  - rewrite geo_steps_executions by auto. lia.
Qed.

(** There each cell breaks down at some point of the first day; the repair story, executed
    24 times in a row, repairs it once. *)
Lemma acts_at_split a i w l k : acts_at a i w l k -> forall w', history w l w' ->
  exists l1 l2 wx wy, l = l1 ++ HExec a :: l2 /\ history w l1 wx /\ acts_now wx a i /\ happen (HExec a) wx = (Ok tt, wy) /\ history wy l2 w'.
Proof.
  induction 1 as [w l H|w l k _ IH|w h l k N _ IH]; intros w' Hh; inversion Hh as [|? ? w1 ? ? E Hl]; subst.
  - exists [], l, w, w1. repeat (split; [first [assumption|reflexivity|constructor]|]). exact Hl.
  - rewrite E in IH. destruct (IH w' Hl) as (l1 & l2 & wx & wy & -> & H1 & H2). exists (HExec a :: l1), l2, wx, wy. split; [reflexivity|].
    split; [econstructor; eauto|exact H2].
  - rewrite E in IH. destruct (IH w' Hl) as (l1 & l2 & wx & wy & -> & H1 & H2). exists (h :: l1), l2, wx, wy. split; [reflexivity|].
    split; [econstructor; eauto|exact H2].
Qed.
Lemma executions_repeat n : executions 1 (repeat (HExec 1) n) = n.
Proof. induction n as [|n IH]; [reflexivity|]. cbn. now rewrite IH. Qed.
Lemma no_break_down i n : forall w k, ~ acts_at 0 i w (repeat (HExec 1) n) k.
Proof. induction n as [|n IH]; cbn [repeat]; intros w k Hk; inversion Hk; subst. eapply IH; eassumption. Qed.
Example C115_example : exists cells cities w', add_uganda_geography sample_sources true circus0 = (Ok (cells, cities), w') /\
  forall i, member w' cells i -> exists l0 w1 w2 w3 d, history w' l0 w1 /\ acts_now w1 0 i /\ happen (HExec 0) w1 = (Ok tt, w2) /\
    history w2 (repeat (HExec 1) 24) w3 /\ forall k, acts_at 1 i w2 (repeat (HExec 1) 24) k <-> k = d.
Proof.
  destruct sample_adds as (cells & cities & w' & E). exists cells, cities, w'. split; [exact E|]. intros i Hi.
  destruct (geography_named _ _ _ _ _ E) as [Nb Nr]. change (length (w_stories circus0)) with 0 in *.
  assert (Hs : (second <= c_step (w_clock circus0))%Z) by (vm_compute; discriminate).
  destruct (C116_never_raises _ _ _ _ _ 0 1 (geo_steps 24) E Nb Nr Hs (geo_steps_are 24)) as (w2 & H).
  destruct (C114_daily_break_down _ _ _ _ _ 0 i 24 [] w' (geo_steps 24) w2 E sample_positive Nb Hi eq_refl (HNil w') H) as (k & _ & Hk).
  - apply (C114_nobody _ _ _ _ _ 0 _ E Nb); [intros c s o Hc'; now destruct c|]. apply geo_untouched.
  - rewrite geo_steps_executions by auto. lia.
  - destruct (acts_at_split _ _ _ _ _ Hk _ H) as (l1 & l2 & wx & wy & El & H1 & H2 & H3 & _).
    assert (F : Forall (fun x => x = HExec 0 \/ x = HExec 1 \/ x = HClock) (l1 ++ HExec 0 :: repeat (HExec 1) 24)).
    { pose proof (geo_steps_are 24) as F. rewrite El in F. apply Forall_app in F as [F _]. apply Forall_app. split; [exact F|].
      constructor; [auto|]. apply Forall_forall. intros x Hx. apply repeat_spec in Hx. auto. }
    destruct (C116_never_raises _ _ _ _ _ 0 1 _ E Nb Nr Hs F) as (w3 & H4). apply history_app in H4 as (wx' & H1' & H4).
    assert (wx' = wx) by (apply history_after in H1; apply history_after in H1'; congruence). subst wx'.
    inversion H4 as [|? ? wy' ? ? E1 Hl]; subst. assert (wy' = wy) by congruence. subst wy'.
    destruct (C115_repaired _ _ _ _ _ 0 1 i 24 l1 wx wy (repeat (HExec 1) 24) w3 E sample_positive Nb Nr Hi eq_refl H1 H2 H3 Hl) as (d & Hd & _ & Hr).
    + apply (geography_only _ _ _ _ _ 0 1 _ E Nb Nr); [intros c s o Hc'; now destruct c|].
      intros h Hh. assert (X : In h (l1 ++ HExec 0 :: repeat (HExec 1) 24)) by (apply in_app_or in Hh as [Hh|Hh]; apply in_or_app; [left|right; right]; exact Hh).
      apply (proj1 (Forall_forall _ _) F) in X as [-> |[-> | ->]]; exact I.
    + exists l1, wx, wy, w3, d. repeat (split; [assumption|]). intros k'. rewrite Hr.
      * rewrite executions_repeat. intuition lia.
      * intros k0. apply no_break_down.
Qed.

Example C113_example : exists cells cities w' i l logs w2 hh rows, add_uganda_geography sample_sources true circus0 = (Ok (cells, cities), w') /\
  member w' cells i /\ attribute_at w' cells "HEALTH" hh /\ execute 0 (after w' l) = (Ok logs, w2) /\
  logs = [("cell_status"%string, mkDf ["TIME"; "CELL_ID"; "NEW_HEALTH_LEVEL"]%string rows)] /\ In i (map fst rows) /\
  exists t v, In (i, [t; i; v]) rows /\ holds w2 hh i v.
Proof.
  destruct C115_example as (cells & cities & w' & E & H). destruct (C111_structure _ _ _ _ _ E) as (_ & (ids & Hl & _ & Hm) & _ & _ & _ & (hh & Hh & _) & _).
  destruct ids as [|i ids]; [discriminate|]. assert (Hi : member w' cells i) by (apply Hm; now left).
  destruct (H i Hi) as (l & w1 & w2 & _ & _ & H1 & H2 & H3 & _). apply history_after in H1. subst w1.
  cbn [happen] in H3. destruct (execute 0 (after w' l)) as [[logs|e] w2'] eqn:Ex; [|discriminate]. assert (w2' = w2) by congruence. subst w2'.
  destruct (geography_named _ _ _ _ _ E) as [Nb _]. change (length (w_stories circus0)) with 0 in Nb.
  destruct (C113_log_is_health _ _ _ _ _ _ _ _ _ _ _ E (or_introl eq_refl) Nb Hh Ex) as (rows & Hlog & _ & Ha & F & Hv).
  apply Ha in H2. exists cells, cities, w', i, l, logs, w2, hh, rows. split; [exact E|]. split; [exact Hi|]. split; [exact Hh|]. split; [exact Ex|].
  destruct rows as [|row rows]; [contradiction|]. split; [exact Hlog|]. split; [exact H2|].
  apply in_map_iff in H2 as ([i' cs] & Ei & Hr). cbn [fst] in Ei. subst i'.
  pose proof (proj1 (Forall_forall _ _) F _ Hr) as (t & x & Et & _). cbn [fst snd] in Et. subst cs. eexists _, _. split; [exact Hr|].
  apply Hv. left. eexists. exact Hr.
Qed.
