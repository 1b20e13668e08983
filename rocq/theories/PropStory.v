(** Properties of stories (C01-C12, C31). *)
From Verif Require Import Base BaseFacts Rng Utils Relationship Frame Gens Clock SpecClock Attribute SpecAttribute World Story Ops
  Fs Circus SpecStory SpecOps SpecWorld Samples StorySamples StoryMore StoryProps StoryWorld StoryWorld2 WorldProps.
From Coq Require Import Permutation.

(** The hypothesis [distinct_members] of the theorems below holds of every circus that can be
    built through the library. *)
Theorem C12_members_distinct g w : built g w -> distinct_members w.
Proof. exact (built_distinct g w). Qed.
Print Assumptions C12_members_distinct.

Lemma asleep_check w a : distinct_members w -> asleep_b w a = true -> asleep w a.
Proof.
  unfold asleep_b, asleep. intros D. destruct (nth_error (w_stories w) a) as [s|] eqn:E; [|discriminate].
  intros H. exists s. split; [reflexivity|]. split; [exact (D _ _ E)|]. intros i. unfold remaining_of.
  destruct (dget i (st_timer s)) as [[st r]|] eqn:Ed; [|now left]. right. apply dget_In in Ed.
  rewrite forallb_forall in H. specialize (H _ Ed). cbn in *. destruct r; [|discriminate]. apply Z.eqb_eq in H. now subst.
Qed.

Definition logging : list op := [OpFieldLogger "log" [] []].
(** four steps of a circus with one story *)
Definition steps (n : nat) : list happening := concat (repeat [HExec 0; HClock] n).

(** C01.  The operations receive one row per member whose counter is 0, in population
    order, indexed by and containing the id; the logs of the execution are theirs. *)
Theorem C01_active_rows a w l w' s :
  execute a w = (Ok l, w') -> nth_error (w_stories w) a = Some s -> due_members s <> [] ->
  exists d' w1, run_chain (st_ops s) (story_rows (st_field s) (due_members s)) (at_start a w) = (Ok (d', l), w1).
Proof. exact (exec_runs_ops a w l w' s). Qed.
Print Assumptions C01_active_rows.

Theorem C01_due_iff_zero w a s i :
  distinct_members w -> nth_error (w_stories w) a = Some s ->
  (In i (due_members s) <-> counter w a i (Some 0%Z)).
Proof. exact (w_due w a s i). Qed.
Print Assumptions C01_due_iff_zero.

Theorem C01_due_in_order s : sublist (due_members s) (map fst (st_timer s)).
Proof. exact (due_sublist s). Qed.
Print Assumptions C01_due_in_order.

(** The table of a story lists the members in the order of the population. *)
Theorem C01_population_order order name p f default states t auto w a w' :
  create_story order name p f default states t auto w = (Ok a, w') -> (forall l, Permutation (order l) l) ->
  exists po s, nth_error (w_pops w) p = Some po /\ nth_error (w_stories w') a = Some s /\
    map fst (st_timer s) = p_ids po /\ st_auto s = auto /\ st_field s = f /\
    (forall i, In i (p_ids po) -> exists r, In (i, ("default"%string, r)) (st_timer s)) /\
    (NoDup (p_ids po) -> auto = false -> forall i, In i (p_ids po) -> counter w' a i (Some (-1)%Z)) /\
    (NoDup (p_ids po) -> auto = true -> forall c, nth_error (w_tgens w) t = Some (TConst c) ->
       forall i, In i (p_ids po) -> never_idle w' a i -> counter w' a i (Some c)).
Proof. exact (w_created order name p f default states t auto w a w'). Qed.
Print Assumptions C01_population_order.

(** Nobody is due: nothing is run and nothing is logged. *)
Theorem C01_nobody a w s :
  nth_error (w_stories w) a = Some s -> due_members s = [] -> exists w', execute a w = (Ok [], w').
Proof. exact (w_idle a w s). Qed.
Print Assumptions C01_nobody.

(** What a logger placed first sees. *)
Theorem C01_first_log a w l w' s id ops :
  execute a w = (Ok l, w') -> nth_error (w_stories w) a = Some s ->
  st_ops s = OpFieldLogger id [] [] :: ops -> (forall o, In o ops -> logs_to id o = false) ->
  dget id l = match due_members s with [] => None | _ => Some (story_rows (st_field s) (due_members s)) end.
Proof. exact (exec_first_log a w l w' s id ops). Qed.
Print Assumptions C01_first_log.

Example C01_example :
  exists l w', execute 0 (after (town 0 true logging) (HForce 0 [s_ "C"; s_ "A"] :: [])) = (Ok l, w') /\
    l = [("log"%string, mkDf ["PERSON"%string] [(s_ "A", [s_ "A"]); (s_ "C", [s_ "C"])])].
Proof. apply (ran_ex []); vm_compute; reflexivity. Qed.

(** C02 *)
Theorem C02_fires_on_time a w l w' i n k :
  distinct_members w -> history w l w' -> nobody_reschedules w a l ->
  counter w a i (Some (Z.of_nat n)) -> k <= n ->
  (acts_at a i w l k <-> k = n /\ n < executions a l).
Proof. exact (w_on_time a w l w' i n k). Qed.
Print Assumptions C02_fires_on_time.

Example C02_example :
  let w := town2 0 true logging 1 true [OpTransit 0 "PERSON" (inr "busy"%string) None] in
  let l := [HExec 0; HExec 1; HClock; HTransit 0 [s_ "B"] ["busy"%string]; HExec 0; HExec 1; HClock; HExec 0] in
  distinct_members w /\ history w l (after w l) /\ nobody_reschedules w 0 l /\
  counter w 0 (s_ "B") (Some (Z.of_nat 2)) /\ executions 0 l = 3 /\ acts_at 0 (s_ "B") w l 2.
Proof.
  intros w l.
  assert (H1 : distinct_members w) by (eapply C12_members_distinct, town2_built).
  assert (H2 : history w l (after w l)) by (apply all_ok_history; vm_compute; reflexivity).
  assert (H3 : nobody_reschedules w 0 l) by (apply nobody_by_check; vm_compute; reflexivity).
  assert (H4 : counter w 0 (s_ "B") (Some (Z.of_nat 2))) by (apply (shows_counter _ _ _ "default"); vm_compute; reflexivity).
  split; [exact H1|]. split; [exact H2|]. split; [exact H3|]. split; [exact H4|]. split; [reflexivity|].
  apply (C02_fires_on_time 0 w l _ _ 2 2 H1 H2 H3 H4 (le_n _)). split; [reflexivity|]. cbn. lia.
Qed.

(** C03 *)
Theorem C03_inactive_stays a w l w' i r :
  distinct_members w -> history w l w' -> nobody_reschedules w a l ->
  counter w a i r -> match r with Some n => (n < 0)%Z | None => True end ->
  (forall k, ~ acts_at a i w l k) /\ counter w' a i r.
Proof. exact (w_inactive a w l w' i r). Qed.
Print Assumptions C03_inactive_stays.

Example C03_example :
  let w := town 0 false logging in
  distinct_members w /\ history w (steps 5) (after w (steps 5)) /\ nobody_reschedules w 0 (steps 5) /\
  counter w 0 (s_ "A") (Some (-1)%Z).
Proof.
  intros w. split; [eapply C12_members_distinct, town_built|].
  split; [apply all_ok_history; vm_compute; reflexivity|].
  split; [apply nobody_by_check; vm_compute; reflexivity|].
  apply (shows_counter _ _ _ "default"). vm_compute. reflexivity.
Qed.

(** C04.  [l] is anything that may happen between the call and the next execution of the
    story: calls on any story, executions of other stories, raising or not. *)
Theorem C04_force_wins a ids w w1 i l :
  distinct_members w -> happen (HForce a ids) w = (Ok tt, w1) -> In i ids ->
  executions a l = 0 -> acts_now (after w1 l) a i.
Proof. exact (w_force a ids w w1 i l). Qed.
Print Assumptions C04_force_wins.

Example C04_example :
  let w := town2 0 true logging 1 true [OpReset 0 None] in
  let l := [HReset 0 None; HTick 0 [s_ "A"]; HExec 1; HClock; HTransit 0 [s_ "A"] ["busy"%string]; HForce 0 [s_ "C"]] in
  distinct_members w /\ happen (HForce 0 [s_ "A"]) w = (Ok tt, after w [HForce 0 [s_ "A"]]) /\
  executions 0 l = 0 /\ all_ok w (HForce 0 [s_ "A"] :: l) = true /\
  ~ acts_now w 0 (s_ "A") /\ acts_now (after w (HForce 0 [s_ "A"] :: l)) 0 (s_ "A").
Proof.
  intros w l. assert (H1 : distinct_members w) by (eapply C12_members_distinct, town2_built).
  assert (H2 : happen (HForce 0 [s_ "A"]) w = (Ok tt, after w [HForce 0 [s_ "A"]])) by (apply happen_ok; vm_compute; reflexivity).
  split; [exact H1|]. split; [exact H2|]. split; [reflexivity|]. split; [vm_compute; reflexivity|]. split.
  - apply due_now_not. vm_compute. reflexivity.
  - rewrite (after_app [HForce 0 [s_ "A"]] l w : after w (HForce 0 [s_ "A"] :: l) = _).
    exact (C04_force_wins 0 [s_ "A"] w _ (s_ "A") l H1 H2 (or_introl eq_refl) eq_refl).
Qed.

(** C05.  [ops1] are the operations before the self-forcing one, [h] what happens
    until the next execution of the story. *)
Theorem C05_self_force a w l w' s ops1 f cond ops2 d1 l1 w1 i row h :
  execute a w = (Ok l, w') -> distinct_members w -> nth_error (w_stories w) a = Some s ->
  due_members s <> [] -> st_ops s = ops1 ++ OpForce a f cond :: ops2 ->
  run_chain ops1 (story_rows (st_field s) (due_members s)) (at_start a w) = (Ok (d1, l1), w1) ->
  In row (df_rows d1) -> cell (df_cols d1) (snd row) f = i -> i <> VNA ->
  match cond with None => True | Some c => cell (df_cols d1) (snd row) c = VBool true end ->
  executions a h = 0 -> acts_now (after w' h) a i.
Proof. exact (w_self_force a w l w' s ops1 f cond ops2 d1 l1 w1 i row h). Qed.
Print Assumptions C05_self_force.

Example C05_example : forall auto,
  let w := after (town 0 auto [OpFieldLogger "log" [] []; OpForce 0 "PERSON" None]) [HForce 0 [s_ "B"]] in
  all_ok w (steps 3) = true /\ counter w 0 (s_ "B") (Some 0%Z) /\
  counter (after w (steps 1)) 0 (s_ "B") (Some 0%Z) /\ counter (after w (steps 3)) 0 (s_ "B") (Some 0%Z).
Proof.
  intros auto w. split; [destruct auto; vm_compute; reflexivity|].
  split; [|split]; apply (shows_counter _ _ _ "default"); destruct auto; vm_compute; reflexivity.
Qed.

(** C06 *)
Theorem C06_at_most_once a w l w' i n k :
  distinct_members w -> history w l w' -> nobody_reschedules w a l ->
  auto_reset w a false -> counter w a i (Some n) -> acts_at a i w l k ->
  (forall k', acts_at a i w l k' -> k' = k) /\ counter w' a i (Some (-1)%Z).
Proof. exact (w_once a w l w' i n k). Qed.
Print Assumptions C06_at_most_once.

Example C06_example :
  let w := after (town 0 false logging) [HReset 0 (Some [s_ "A"; s_ "C"])] in
  distinct_members w /\ history w (steps 5) (after w (steps 5)) /\ nobody_reschedules w 0 (steps 5) /\
  auto_reset w 0 false /\ counter w 0 (s_ "A") (Some 2%Z) /\ acts_at 0 (s_ "A") w (steps 5) 2.
Proof.
  intros w.
  assert (H1 : distinct_members w) by (apply (after_distinct [_]); eapply C12_members_distinct, town_built).
  assert (H2 : history w (steps 5) (after w (steps 5))) by (apply all_ok_history; vm_compute; reflexivity).
  assert (H3 : nobody_reschedules w 0 (steps 5)) by (apply nobody_by_check; vm_compute; reflexivity).
  assert (H4 : counter w 0 (s_ "A") (Some (Z.of_nat 2))) by (apply (shows_counter _ _ _ "default"); vm_compute; reflexivity).
  split; [exact H1|]. split; [exact H2|]. split; [exact H3|].
  split; [eexists; split; vm_compute; reflexivity|]. split; [exact H4|].
  apply (C02_fires_on_time 0 w _ _ _ 2 2 H1 H2 H3 H4 (le_n _)). split; [reflexivity|]. cbn. lia.
Qed.

(** C07.  [activities] are the activities, in their current states, of the members that are
    named and not forced; [counters] what the timer generator yields for them. *)
Theorem C07_reset_timers a ids w w' s g :
  happen (HReset a ids) w = (Ok tt, w') -> distinct_members w -> sound_states w a ->
  nth_error (w_stories w) a = Some s -> nth_error (w_tgens w) (st_tgen s) = Some g ->
  match ids with Some l => NoDup l | None => True end ->
  exists activities counters,
    (forall i, In i (map fst activities) <-> reset_names s ids i /\ ~ is_forced w a i) /\
    (activities <> [] -> exists g', tgen_generate g activities = Ok (counters, g')) /\
    (forall i q, In (i, q) activities -> exists st, in_state w a i st /\ activity_in s i st q) /\
    (forall i q, In (i, q) activities -> (q == 0)%Q -> counter w' a i (Some (-1)%Z)) /\
    (forall i q, In (i, q) activities -> ~ (q == 0)%Q -> exists t, In (i, t) counters /\ counter w' a i t) /\
    (forall i r, ~ (reset_names s ids i /\ ~ is_forced w a i) -> (counter w' a i r <-> counter w a i r)) /\
    (forall i st, in_state w' a i st <-> in_state w a i st) /\
    (forall b, b <> a -> nth_error (w_stories w') b = nth_error (w_stories w) b).
Proof. exact (w_reset a ids w w' s g). Qed.
Print Assumptions C07_reset_timers.

(** People whose activity is 0 when busy. *)
Definition idle_town : world :=
  calls people [CStory keep_order "visits" 0 "PERSON" (0, 1) (Some [("busy"%string, (1, 2))]) 0 false;
                CSetOperations 0 logging; CHappening (HTransit 0 [s_ "B"] ["busy"%string]); CHappening (HForce 0 [s_ "C"])].
Example C07_example :
  happen (HReset 0 None) idle_town = (Ok tt, after idle_town [HReset 0 None]) /\
  distinct_members idle_town /\ sound_states idle_town 0 /\
  counter (after idle_town [HReset 0 None]) 0 (s_ "A") (Some 2%Z) /\
  counter (after idle_town [HReset 0 None]) 0 (s_ "B") (Some (-1)%Z) /\
  counter (after idle_town [HReset 0 None]) 0 (s_ "C") (Some 0%Z).
Proof.
  split; [apply happen_ok; vm_compute; reflexivity|].
  split.
  { eapply (C12_members_distinct stream). unfold idle_town, people. apply built_calls; [apply built_calls; [apply built_new|]|];
    repeat constructor; intros l; apply Permutation_refl. }
  split; [apply states_by_check; vm_compute; reflexivity|].
  split; [apply (shows_counter _ _ _ "default"); vm_compute; reflexivity|].
  split; [apply (shows_counter _ _ _ "busy"); vm_compute; reflexivity|].
  apply (shows_counter _ _ _ "default"); vm_compute; reflexivity.
Qed.

(** C08.  From a counter n <= c on, the member acts at executions n, n + (c+1), ...; the
    counter of a fresh member is c (C01_population_order). *)
Theorem C08_constant_period a w l w' i c n k :
  distinct_members w -> history w l w' -> nobody_reschedules w a l ->
  auto_reset w a true -> constant_timer w a (Z.of_nat c) -> never_idle w a i ->
  counter w a i (Some (Z.of_nat n)) -> n <= c ->
  (acts_at a i w l k <-> k < executions a l /\ exists m, k = n + m * (c + 1)).
Proof. exact (w_const a w l w' i c n k). Qed.
Print Assumptions C08_constant_period.

Example C08_example :
  let w := town 0 true logging in
  distinct_members w /\ history w (steps 6) (after w (steps 6)) /\ nobody_reschedules w 0 (steps 6) /\
  auto_reset w 0 true /\ constant_timer w 0 (Z.of_nat 2) /\ never_idle w 0 (s_ "A") /\
  counter w 0 (s_ "A") (Some (Z.of_nat 2)) /\ (forall k, acts_at 0 (s_ "A") w (steps 6) k <-> k = 2 \/ k = 5).
Proof.
  intros w.
  assert (H1 : distinct_members w) by (eapply C12_members_distinct, town_built).
  assert (H2 : history w (steps 6) (after w (steps 6))) by (apply all_ok_history; vm_compute; reflexivity).
  assert (H3 : nobody_reschedules w 0 (steps 6)) by (apply nobody_by_check; vm_compute; reflexivity).
  assert (H4 : counter w 0 (s_ "A") (Some (Z.of_nat 2))) by (apply (shows_counter _ _ _ "default"); vm_compute; reflexivity).
  assert (H5 : auto_reset w 0 true) by (eexists; split; vm_compute; reflexivity).
  assert (H6 : constant_timer w 0 (Z.of_nat 2)) by (eexists; split; vm_compute; reflexivity).
  assert (H7 : never_idle w 0 (s_ "A")) by (apply active_not_idle, active_check; vm_compute; reflexivity).
  split; [exact H1|]. split; [exact H2|]. split; [exact H3|]. split; [exact H5|]. split; [exact H6|].
  split; [exact H7|]. split; [exact H4|]. intros k.
  rewrite (C08_constant_period 0 w _ _ _ 2 2 k H1 H2 H3 H5 H6 H7 H4 (le_n _)).
  change (executions 0 (steps 6)) with 6. split.
  - intros (Hk & m & ->). lia.
  - intros [->| ->]; (split; [lia|]); [exists 0|exists 1]; reflexivity.
Qed.

(** C09 *)
Theorem C09_transit_local a ids states w w' :
  happen (HTransit a ids states) w = (Ok tt, w') -> distinct_members w ->
  (forall i, In i ids -> exists st, last_value i (combine ids states) = Some st /\ in_state w' a i st) /\
  (forall i st, ~ In i ids -> (in_state w' a i st <-> in_state w a i st)) /\
  (forall i r, counter w' a i r <-> counter w a i r) /\
  (forall b, b <> a -> nth_error (w_stories w') b = nth_error (w_stories w) b).
Proof. exact (w_transit a ids states w w'). Qed.
Print Assumptions C09_transit_local.

Theorem C09_param_of_current_state a w s p ids l :
  nth_error (w_stories w) a = Some s -> distinct_members w -> sound_states w a ->
  get_param s p ids = Ok l ->
  map fst l = ids /\
  forall i q, In (i, q) l -> forall st, in_state w a i st ->
    match p with Activity => activity_in s i st q | BackProb => back_probability_in s i st q end.
Proof. exact (w_param a w s p ids l). Qed.
Print Assumptions C09_param_of_current_state.

Example C09_example :
  let w := town 0 true logging in
  happen (HTransit 0 [s_ "A"; s_ "C"] ["busy"; "default"]%string) w =
    (Ok tt, after w [HTransit 0 [s_ "A"; s_ "C"] ["busy"; "default"]%string]) /\
  exists s, nth_error (w_stories (after w [HTransit 0 [s_ "A"; s_ "C"] ["busy"; "default"]%string])) 0 = Some s /\
    get_param s BackProb [s_ "B"; s_ "A"] = Ok [(s_ "B", 0%Q); (s_ "A", 1%Q)].
Proof.
  intros w. split.
  - apply happen_ok. vm_compute. reflexivity.
  - eexists. split; vm_compute; reflexivity.
Qed.

(** A state that was never declared is accepted and breaks later resets of the story. *)
Theorem C09_undeclared_state_refuted :
  exists w w1, distinct_members w /\ happen (HTransit 0 [s_ "A"] ["lost"%string]) w = (Ok tt, w1) /\
    fst (happen (HReset 0 (Some [s_ "A"])) w1) = Err KeyError.
Proof.
  exists (town 0 true logging), (after (town 0 true logging) [HTransit 0 [s_ "A"] ["lost"%string]]).
  split; [eapply C12_members_distinct, town_built|].
  split; [apply happen_ok|]; vm_compute; reflexivity.
Qed.
Print Assumptions C09_undeclared_state_refuted.

(** C10.  [ops] are the operations given by the user, to which set_operations adds the
    internal one.  When no operation drops rows, all members that ran are concerned. *)
Theorem C10_back_to_default_partial a w l w' s ops judge :
  execute a w = (Ok l, w') -> distinct_members w -> sound_states w a ->
  nth_error (w_stories w) a = Some s -> st_ops s = ops ++ [OpBack a judge] ->
  (forall o, In o ops -> changes_states a o = false) -> uniform_generator w judge ->
  exists survivors, incl survivors (due_members s) /\
    ((forall o, In o ops -> drops_rows o = false) -> survivors = due_members s) /\
    (forall i st, ~ In i survivors -> (in_state w' a i st <-> in_state w a i st)) /\
    (forall i, in_state w a i "default"%string -> in_state w' a i "default"%string) /\
    (forall i st, In i survivors -> in_state w a i st -> st <> "default"%string ->
       (in_state w' a i st \/ in_state w' a i "default"%string) /\
       ((forall q, back_probability_in s i st q -> (1 <= q)%Q) -> in_state w' a i "default"%string) /\
       ((forall q, back_probability_in s i st q -> (q <= 0)%Q) -> in_state w' a i st)).
Proof. exact (w_back a w l w' s ops judge). Qed.
Print Assumptions C10_back_to_default_partial.

Definition busy_town (ops : list op) : world :=
  after (town 0 true ops) [HTransit 0 [s_ "A"; s_ "B"] ["busy"; "busy"]%string; HForce 0 [s_ "A"; s_ "C"]].
Example C10_example :
  exists l w', execute 0 (busy_town logging) = (Ok l, w') /\ distinct_members (busy_town logging) /\
    sound_states (busy_town logging) 0 /\ uniform_generator (busy_town logging) 3 /\
    in_state (busy_town logging) 0 (s_ "A") "busy" /\ in_state w' 0 (s_ "A") "default" /\
    in_state w' 0 (s_ "B") "busy".
Proof.
  apply (ran_ex []); [vm_compute; reflexivity|].
  split; [unfold busy_town; apply after_distinct; eapply C12_members_distinct, town_built|].
  split; [apply states_by_check; vm_compute; reflexivity|].
  split; [exists (random_state stream 1234); reflexivity|].
  split; [apply (shows_state _ _ _ _ (Some 0%Z)); vm_compute; reflexivity|].
  split; [apply (shows_state _ _ _ _ (Some 2%Z)); vm_compute; reflexivity|].
  apply (shows_state _ _ _ _ (Some 1%Z)); vm_compute; reflexivity.
Qed.

(** A member that ran but whose row was dropped by an operation keeps its state although
    its probability is 1. *)
Definition drop_all : list op := [OpApply ["PERSON"%string] ["stop"%string]
    (fun d => Ok (mkDf ["x"%string] (map (fun r => (fst r, [VBool true])) (df_rows d)))); OpDropRow "stop"].
Theorem C10_dropped_row_refuted :
  exists w l w' s, distinct_members w /\ sound_states w 0 /\ nth_error (w_stories w) 0 = Some s /\
    execute 0 w = (Ok l, w') /\ acts_now w 0 (s_ "A") /\ in_state w 0 (s_ "A") "busy" /\
    (forall q, back_probability_in s (s_ "A") "busy" q -> (q == 1)%Q) /\ in_state w' 0 (s_ "A") "busy".
Proof.
  exists (busy_town drop_all), (ok_or [] (fst (execute 0 (busy_town drop_all)))), (snd (execute 0 (busy_town drop_all))).
  eexists. split; [unfold busy_town; apply after_distinct; eapply C12_members_distinct, town_built|].
  split; [apply states_by_check; vm_compute; reflexivity|].
  split; [vm_compute; reflexivity|].
  split; [apply ran; vm_compute; reflexivity|].
  split; [apply due_now_acts; vm_compute; reflexivity|].
  split; [apply (shows_state _ _ _ _ (Some 0%Z)); vm_compute; reflexivity|].
  split; [|apply (shows_state _ _ _ _ (Some 2%Z)); vm_compute; reflexivity].
  apply back_check. vm_compute. reflexivity.
Qed.
Print Assumptions C10_dropped_row_refuted.

(** C11.  A reset by the user ... *)
Theorem C11_user_reset_partial a ids w w' s i g :
  happen (HReset a ids) w = (Ok tt, w') -> distinct_members w ->
  nth_error (w_stories w) a = Some s -> match ids with Some l => NoDup l | None => True end ->
  timer_generator w a g -> delays g -> always_active w a i -> ~ is_forced w a i -> reset_names s ids i ->
  exists n, counter w' a i (Some (Z.of_nat n)) /\
    forall l w2, history w' l w2 -> nobody_reschedules w' a l -> n < executions a l -> acts_at a i w' l n.
Proof. exact (w_user_reset a ids w w' s i g). Qed.
Print Assumptions C11_user_reset_partial.

(** ... or by an operation of another story leads to an action ... *)
Theorem C11_other_story_reset_partial a b w l w' sb g i f ops1 ops2 d1 l1 w1 :
  execute b w = (Ok l, w') -> a <> b -> distinct_members w -> nth_error (w_stories w) b = Some sb ->
  timer_generator w a g -> delays g -> always_active w a i -> ~ is_forced w a i ->
  due_members sb <> [] -> st_ops sb = ops1 ++ OpReset a f :: ops2 ->
  (forall o, In o (ops1 ++ ops2) -> reschedules a o = false) ->
  run_chain ops1 (story_rows (st_field sb) (due_members sb)) (at_start b w) = (Ok (d1, l1), w1) ->
  names_row f d1 i ->
  exists n, counter w' a i (Some (Z.of_nat n)) /\
    forall h w2, history w' h w2 -> nobody_reschedules w' a h -> n < executions a h -> acts_at a i w' h n.
Proof. exact (w_other_reset a b w l w' sb g i f ops1 ops2 d1 l1 w1). Qed.
Print Assumptions C11_other_story_reset_partial.

Example C11_example :
  let w := after (town2 0 false logging 1 true [OpReset 0 (Some "PERSON"%string)]) [HTick 1 []] in
  exists l w', execute 1 w = (Ok l, w') /\ always_active w 0 (s_ "B") /\ timer_generator w 0 (TConst 2) /\
    delays (TConst 2) /\ ~ acts_now w 0 (s_ "B") /\ counter w 0 (s_ "B") (Some (-1)%Z) /\ counter w' 0 (s_ "B") (Some 2%Z).
Proof.
  intros w. apply (ran_ex []); [vm_compute; reflexivity|].
  split; [apply active_check; vm_compute; reflexivity|].
  split; [eexists; split; vm_compute; reflexivity|]. split; [left; exists 2%Z; split; [lia|reflexivity]|].
  split.
  - apply due_now_not. vm_compute. reflexivity.
  - split; apply (shows_counter _ _ _ "default"); vm_compute; reflexivity.
Qed.

(** ... but not by an operation of the story itself: the delay 0 it is given is ticked away at
    the end of the execution, and the member never acts again. *)
Theorem C11_own_reset_refuted :
  exists w l w', distinct_members w /\ timer_generator w 0 (TConst 0) /\ always_active w 0 (s_ "A") /\
    acts_now w 0 (s_ "A") /\ execute 0 w = (Ok l, w') /\
    (exists s j, nth_error (w_stories w) 0 = Some s /\ st_ops s = [OpReset 0 None; OpBack 0 j]) /\
    forall n k, ~ acts_at 0 (s_ "A") w' (steps n) k.
Proof.
  set (w := after (town 1 false [OpReset 0 None]) [HForce 0 [s_ "A"]]).
  exists w, (ok_or [] (fst (execute 0 w))), (snd (execute 0 w)).
  assert (D : distinct_members w) by (unfold w; apply after_distinct; eapply C12_members_distinct, town_built).
  split; [exact D|]. split; [eexists; split; vm_compute; reflexivity|]. split; [apply active_check; vm_compute; reflexivity|].
  split; [apply due_now_acts; vm_compute; reflexivity|]. split; [apply ran; vm_compute; reflexivity|].
  split; [eexists _, _; split; vm_compute; reflexivity|].
  intros n k. apply asleep_steps. apply asleep_check; [|vm_compute; reflexivity].
  intros a s. apply (exec_distinct 0 w (ok_or [] (fst (execute 0 w)))); [apply ran; vm_compute; reflexivity|exact D].
Qed.
Print Assumptions C11_own_reset_refuted.

(** C12 *)
Theorem C12_members_fixed l w a s :
  nth_error (w_stories w) a = Some s ->
  exists s', nth_error (w_stories (after w l)) a = Some s' /\ map fst (st_timer s') = map fst (st_timer s).
Proof. exact (w_members l w a s). Qed.
Print Assumptions C12_members_fixed.

(** (reset_timers and timer_tick ignore forced ids, known or not.) *)
Theorem C12_unknown_ids_raise h a i w s :
  nth_error (w_stories w) a = Some s -> ~ In i (map fst (st_timer s)) -> ~ is_forced w a i -> names h a i ->
  (exists e, fst (happen h w) = Err e) /\
  forall b j r st, (counter (snd (happen h w)) b j r <-> counter w b j r) /\
                   (in_state (snd (happen h w)) b j st <-> in_state w b j st).
Proof. exact (w_unknown h a i w s). Qed.
Print Assumptions C12_unknown_ids_raise.

Example C12_example :
  exists s, nth_error (w_stories (town 0 true logging)) 0 = Some s /\
    map fst (st_timer s) = [s_ "A"; s_ "B"; s_ "C"] /\ ~ is_forced (town 0 true logging) 0 (s_ "Z") /\
    names (HForce 0 [s_ "A"; s_ "Z"]) 0 (s_ "Z").
Proof.
  eexists. split; [vm_compute; reflexivity|]. split; [reflexivity|]. split; [|cbn; auto].
  intros (s & Hs & Hi). assert (E : option_map st_forced (nth_error (w_stories (town 0 true logging)) 0) = Some []) by (vm_compute; reflexivity).
  rewrite Hs in E. injection E as E. rewrite E in Hi. destruct Hi.
Qed.

(** C31.  A member rescheduled by the automatic reset with a delay n >= 1, not completing whole
    cycles, next acts (n + 1 executions later, C02) in a period of positive weight. *)
Theorem C31_auto_reset_partial a w l w' s y p start cstep k i :
  execute a w = (Ok l, w') -> distinct_members w -> nth_error (w_stories w) a = Some s -> st_auto s = true ->
  (forall o, In o (st_ops s) -> reschedules a o = false) ->
  nth_error (w_tgens w) (st_tgen s) = Some (TCyclic y) -> live p start cstep k y ->
  always_active w a i -> acts_now w a i ->
  exists n, counter w' a i (Some (Z.of_nat n)) /\
    (1 <= n -> ((Z.of_nat n + 1) mod Z.of_nat (y_bins y) <> 0)%Z ->
     (0 < weight_at p (bin_start p start cstep (Z.of_nat k + Z.of_nat n + 1)))%Q).
Proof. exact (w_auto_bin a w l w' s y p start cstep k i). Qed.
Print Assumptions C31_auto_reset_partial.

(** A four-hour profile with two idle hours. *)
Definition quad : timer_profile := mkProfile [1; 0; 1; 0]%Q hour monday.
Definition quad_gen : cyclic :=
  ok_or (mkCyclic quad (random_state stream 3) 0 []) (new_cyclic quad monday hour (random_state stream 1)).
Definition quad_calls : list call :=
  [CNewTimer (TCyclic quad_gen) true; visit "visits" 2 true; CSetOperations 0 logging].
Definition quad_town : world := calls people quad_calls.
Lemma quad_built : built stream quad_town.
Proof.
  unfold quad_town, people. apply built_calls; [apply built_calls; [apply built_new|]|];
  repeat constructor; intros l; apply Permutation_refl.
Qed.

(** In this circus a member acts in its fourth hour, whose weight is 0 (the timers given at
    creation are too long by one step) ... *)
Theorem C31_initial_timer_refuted :
  exists w, built stream w /\ all_ok w (steps 3) = true /\
    acts_at 0 (s_ "A") w (steps 4) 3 /\ acts_now (after w (steps 3)) 0 (s_ "A") /\
    (weight_at quad (c_date (w_clock (after w (steps 3)))) == 0)%Q.
Proof.
  exists quad_town. split; [exact quad_built|]. split; [vm_compute; reflexivity|].
  split; [|split; [apply due_now_acts; vm_compute; reflexivity|vm_compute; reflexivity]].
  change (steps 4) with (steps 3 ++ [HExec 0; HClock]). cbn [steps repeat concat app].
  do 3 (apply acts_later, acts_skip; [discriminate|]).
  apply acts_first. apply due_now_acts. vm_compute. reflexivity.
Qed.
Print Assumptions C31_initial_timer_refuted.

(** ... and another member, rescheduled with the delay 0, in the second hour. *)
Theorem C31_zero_delay_refuted :
  exists w, built stream w /\ all_ok w (steps 1) = true /\
    acts_now w 0 (s_ "B") /\ acts_now (after w (steps 1)) 0 (s_ "B") /\
    (weight_at quad (c_date (w_clock (after w (steps 1)))) == 0)%Q.
Proof.
  exists quad_town. split; [exact quad_built|]. split; [vm_compute; reflexivity|].
  split; [apply due_now_acts; vm_compute; reflexivity|].
  split; [apply due_now_acts; vm_compute; reflexivity|vm_compute; reflexivity].
Qed.
Print Assumptions C31_zero_delay_refuted.

Example C31_example :
  exists l w' s, execute 0 (after quad_town (steps 3)) = (Ok l, w') /\
    nth_error (w_stories (after quad_town (steps 3))) 0 = Some s /\ st_auto s = true /\
    acts_now (after quad_town (steps 3)) 0 (s_ "C") /\ counter w' 0 (s_ "C") (Some 4%Z).
Proof.
  exists (ok_or [] (fst (execute 0 (after quad_town (steps 3))))), (snd (execute 0 (after quad_town (steps 3)))). eexists.
  split; [apply ran; vm_compute; reflexivity|]. split; [vm_compute; reflexivity|]. split; [reflexivity|].
  split; [apply due_now_acts; vm_compute; reflexivity|]. apply (shows_counter _ _ _ "default"). vm_compute. reflexivity.
Qed.
