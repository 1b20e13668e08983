(** The scenario of tests/scenarios/test_cdr.py from its construction to its last log (C154). *)
From Verif Require Import Base BaseFacts Rng RngFacts Utils Relationship SpecRelationship Frame Gens GensProps Clock SpecClock ClockProps Attribute World Story Ops Circus Fs
  SpecStory SpecOps SpecWorld SpecPopulation SpecCircus SpecLocal SpecSupply SpecLedger SpecRecords SpecSafe Geography SpecGeography GeographyRun GeographyBuild GeographyTotal
  Cdr SpecCdr CdrSetup SpecCdrSetup CdrBuild CdrReady Samples PropGeography PropCdrSetup PropCdr.
From Coq Require Import Permutation Lqa.
Local Open Scope nat_scope.

Lemma mobility_starts c : (0 < c_step c)%Z -> (c_step c | hour)%Z -> (c_step c | c_date c)%Z -> can_start mobility_profile c.
Proof.
  intros H1 H2 H3. assert (H4 : (c_step c | 1473638400 * second)%Z) by (apply (Z.divide_trans _ hour); [exact H2|]; exists 409344%Z; reflexivity).
  destruct (aligned_construction mobility_profile (c_date c) (c_step c) (random_state (fun _ _ => 0%N) 0)) as (y & E & _); auto.
  - reflexivity.
  - left. split; [|exact H4]. destruct H2 as [k Hk]. exists (24 * k)%Z. unfold day. rewrite <- Z.mul_assoc, <- Hk. reflexivity.
  - apply Z.divide_sub_r; assumption.
  - cbn. repeat constructor; unfold Qle; cbn; lia.
  - reflexivity.
  - eexists _, y. exact E.
Qed.
Lemma weekly_starts c : (0 < c_step c)%Z -> (c_step c | hour)%Z -> (c_step c | c_date c)%Z -> can_start high_week_days_profile c.
Proof.
  intros H1 H2 H3. assert (H4 : (c_step c | monday)%Z) by (apply (Z.divide_trans _ hour); [exact H2|]; exists 406992%Z; reflexivity).
  assert (H5 : (c_step c | day)%Z) by (destruct H2 as [k Hk]; exists (24 * k)%Z; unfold day; rewrite <- Z.mul_assoc, <- Hk; reflexivity).
  destruct (aligned_construction high_week_days_profile (c_date c) (c_step c) (random_state (fun _ _ => 0%N) 0)) as (y & E & _); auto.
  - reflexivity.
  - apply Z.divide_sub_r; assumption.
  - cbn. repeat constructor; unfold Qle; cbn; lia.
  - reflexivity.
  - eexists _, y. exact E.
Qed.
Lemma new_circus_clock g seed start step : exists sd ck, new_circus g seed start step = mkWorld g sd ck [] [] [] [] [] [] [] [] [] /\ c_date ck = start /\ c_step ck = step.
Proof. unfold new_circus. destruct (next_seed _) as [z sd]. eexists _, _. split; [reflexivity|]. split; reflexivity. Qed.

Lemma built_scenario x params g seed start step c w : sane_sources x -> build_cdr x params (new_circus g seed start step) = (Ok c, w) ->
  scenario x params w c /\ c_date (w_clock w) = start /\ c_step (w_clock w) = step.
Proof.
  intros S H. destruct (new_circus_clock g seed start step) as (sd & ck & E & <- & <-). rewrite E in H. clear E.
  destruct (Z.leb_spec (n_subscribers params) 0) as [N|Hn].
  { unfold build_cdr, create_subs_and_sims in H. rewrite (proj2 (Z.leb_le _ _)) in H by exact N. discriminate. }
  destruct (build_may x params g sd ck Hn S) as [(a & w1 & E & K)|(_ & e & w1 & E)]; rewrite E in H; [|discriminate]. injection H as <- <-. exact K.
Qed.

(** ** C154.  Whatever the seed, the parameters, and what networkx and numpy draw: a scenario that could be constructed has
    its six stories, populations, attributes and relationships in place, and, if everybody has a possible cell, meets all
    that C138 asks for. *)
Theorem C154_constructed x params g seed start step c w :
  sane_sources x -> build_cdr x params (new_circus g seed start step) = (Ok c, w) ->
  c_date (w_clock w) = start /\ c_step (w_clock w) = step /\
  exists unhealthy healthy subscribers simcards antennas,
    cdr_circus w c (of_geography x) unhealthy healthy subscribers simcards antennas /\
    telephony w params (k_subs c) (k_sims_pop c) (k_sims_of c) (k_agents c) (k_operator c) (k_main_acct c) (k_msisdn c) subscribers simcards /\
    ((forall i, In i subscribers -> items w (k_possible_cells c) i <> []) -> (second <= step)%Z ->
     cdr_ready w c unhealthy healthy subscribers simcards antennas).
Proof.
  intros S H. destruct (built_scenario _ _ _ _ _ _ _ _ S H) as ((u & h & subs & sims & ant & C & T & R & _) & Ed & Est). rewrite Est in R. split; [exact Ed|]. split; [exact Est|]. exists u, h, subs, sims, ant. auto.
Qed.
Print Assumptions C154_constructed.

(** The construction succeeds when there are enough numbers, edges in the graphs, and steps that divide the hour. *)
Theorem C154_succeeds x params g seed start step :
  sane_sources x -> (0 < n_subscribers params)%Z -> (4 * n_subscribers params <= 7 * (10 ^ Z.of_nat (digits params) - 1))%Z ->
  (forall s m, (0 < n_agents params)%Z -> 0 < m -> sound_graph (nx_bipartite x s m (Z.to_nat (n_agents params)) (3#10)) m (Z.to_nat (n_agents params))) ->
  (forall s, sound_graph (nx_bipartite x s (Z.to_nat (n_subscribers params)) (Z.to_nat n_cells) (4#10)) (Z.to_nat (n_subscribers params)) (Z.to_nat n_cells)) ->
  (0 < step)%Z -> (step | hour)%Z -> (step | start)%Z ->
  exists c w, build_cdr x params (new_circus g seed start step) = (Ok c, w).
Proof.
  intros S Hn Hd Ha Hc H1 H2 H3. destruct (new_circus_clock g seed start step) as (sd & ck & -> & <- & <-).
  destruct (build_may x params g sd ck Hn S) as [(a & w1 & E & K)|(N & _)]; [eauto|]. exfalso. apply N.
  unfold buildable. split; [exact Hn|]. split; [exact Hd|]. split; [exact Ha|]. split; [exact Hc|].
  split; [apply uganda_starts; assumption|]. split; [apply mobility_starts; assumption|apply weekly_starts; assumption].
Qed.
Print Assumptions C154_succeeds.

(** Nothing that can happen to the constructed scenario makes it raise, if everybody has a possible cell ... *)
Theorem C154_never_raises x params g seed start step c w hs :
  sane_sources x -> build_cdr x params (new_circus g seed start step) = (Ok c, w) -> (second <= step)%Z ->
  (forall po i, nth_error (w_pops w) (k_subs c) = Some po -> In i (p_ids po) -> items w (k_possible_cells c) i <> []) ->
  Forall (sensible w) hs -> exists wend, history w hs wend.
Proof.
  intros S H Hs Hp Hh. destruct (built_scenario _ _ _ _ _ _ _ _ S H) as ((u & h & subs & sims & ant & C & T & R & _) & Ed & Est).
  apply (C138_never_raises w c (of_geography x) u h subs sims ant hs C); [|exact Hh]. apply R; [|rewrite Est; exact Hs].
  destruct (tel_subs _ _ _ _ _ _ _ _ _ _ _ T) as ((_ & _ & po & Ep & <-) & _). intros i Hi. exact (Hp po i Ep Hi).
Qed.
Print Assumptions C154_never_raises.

(** ... and it runs to the end of any duration, when the graphs leave nobody alone. *)
Theorem C154_run_completes x params g seed start step c w duration folder del fs :
  sane_sources x -> build_cdr x params (new_circus g seed start step) = (Ok c, w) -> (second <= step)%Z -> nobody_alone x params ->
  startable fs folder del -> exists wend fs' tr, run duration folder del w fs = (Ok tt, (wend, fs', tr)).
Proof.
  intros S H Hs Hp Hf. destruct (built_scenario _ _ _ _ _ _ _ _ S H) as ((u & h & subs & sims & ant & C & T & R & P & _) & Ed & Est).
  apply (C138_run_completes w c (of_geography x) u h subs sims ant duration folder del fs C); [|exact Hf]. apply R; [exact (P Hp)|rewrite Est; exact Hs].
Qed.
Print Assumptions C154_run_completes.

(** With complete graphs: 3 subscribers, 2 agents, one digit. *)
Lemma sample_sane : sane_sources sample_cdr_sources.
Proof.
  split; [intros n; reflexivity|]. split; [|split; intros l; apply Permutation_refl].
  intros n. destruct (sample_positive n) as [P1 P2]. first [exact P1|exact P2].
Qed.
Definition summary (r : result cdr * world) : option (list string * nat * nat * list nat) :=
  match r with
  | (Ok c, w) => Some (map st_name (w_stories w), length (w_pops w), length (items w (k_possible_cells c) (VStr "SUBS_0000000001"%string)),
                       [k_cell c; k_excitability c; k_operator c; k_msisdn c; k_main_acct c; k_health c])
  | _ => None
  end.
Example C154_example :
  sane_sources sample_cdr_sources /\ nobody_alone sample_cdr_sources sample_cdr_params /\
  (exists c w, build_cdr sample_cdr_sources sample_cdr_params (new_circus stream 123456 monday hour) = (Ok c, w)) /\
  summary (build_cdr sample_cdr_sources sample_cdr_params (new_circus stream 123456 monday hour)) =
    Some (["cell_break_down"; "cell_repair_down"; "mobility"; "topups"; "calls"; "sms"]%string, 4, 200, [7; 8; 0; 2; 1; 5]).
Proof.
  split; [exact sample_sane|]. split; [|split; [|vm_compute; reflexivity]].
  - intros s i Hi. cbn [nx_bipartite sample_cdr_sources]. unfold complete_graph. apply in_map_iff. exists (i, Z.to_nat (n_subscribers sample_cdr_params) + 0). split; [reflexivity|].
    apply in_flat_map. exists i. split; [apply in_seq; lia|]. apply in_map_iff. exists 0. split; [reflexivity|]. apply in_seq. pose proof n_cells_pos. lia.
  - apply C154_succeeds; [exact sample_sane|reflexivity|discriminate| | |reflexivity|apply Z.divide_refl|exists 406992%Z; reflexivity].
    + intros s m _ Hm. apply complete_sound; [exact Hm|cbn; lia].
    + intros s. apply complete_sound; [cbn; lia|pose proof n_cells_pos; lia].
Qed.
