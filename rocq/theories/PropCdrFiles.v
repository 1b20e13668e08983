(** The scenario of tests/scenarios/test_cdr.py from its seed to its files (C155). *)
From Verif Require Import Base BaseFacts Rng RngFacts Utils Relationship SpecRelationship Frame Gens GensProps Clock SpecClock ClockProps Attribute SpecAttribute World Story Ops Circus Fs
  SpecStory SpecOps SpecWorld SpecPopulation SpecCircus SpecLocal SpecSupply SpecFs SpecLedger SpecRecords SpecNow SpecJournal SpecSafe Geography SpecGeography GeographyRun GeographyBuild GeographyTotal
  Cdr SpecCdr CdrProps CdrSetup SpecCdrSetup CdrBuild CdrReady SpecSnd SpecCdrLogs SpecCdrMoves SpecPrompt SpecCdrFiles CircusProps Samples StorySamples PropCircus PropGeography PropCdrSetup PropCdr PropCdrLogs PropCdrMoves PropPrompt PropCdrBuild.
From Coq Require Import Permutation Sorted Lqa.
Local Open Scope nat_scope.

Lemma simulated_scenario x params g seed start step duration folder del fs c w w' fs' : simulated x params g seed start step duration folder del fs c w w' fs' ->
  exists unhealthy healthy subscribers simcards antennas,
    cdr_circus w c (of_geography x) unhealthy healthy subscribers simcards antennas /\ cdr_ready w c unhealthy healthy subscribers simcards antennas /\
    telephony w params (k_subs c) (k_sims_pop c) (k_sims_of c) (k_agents c) (k_operator c) (k_main_acct c) (k_msisdn c) subscribers simcards /\
    ~ In VNA subscribers /\ without_timer w (k_topups c) /\ distinct_members w /\ numbers_differ w c /\ single_valued w (k_cell c) /\ single_valued w (k_health c) /\
    Forall reachable (w_rels w) /\ c_step (w_clock w) = step.
Proof.
  intros (S & A & Hs & _ & B & _). destruct (built_scenario _ _ _ _ _ _ _ _ S B) as ((u & h & subs & sims & ant & C & T & R & P & Na & Wt) & Ed & Est).
  rewrite Est in R. specialize (R (P A) Hs). exists u, h, subs, sims, ant. split; [exact C|]. split; [exact R|]. split; [exact T|]. split; [exact Na|]. split; [exact Wt|].
  split; [intros a s Es; exact (proj1 (ready_stories _ _ _ _ _ _ _ R a s Es))|]. split; [intros a b v; exact (tel_numbers _ _ _ _ _ _ _ _ _ _ _ T a b v)|].
  split; [eapply filled_single, ready_cell; exact R|]. split; [eapply filled_single, ready_health; exact R|]. split; [exact (ready_rels _ _ _ _ _ _ _ R)|exact Est].
Qed.

(** ** C155.  At the end of the simulation the account of a SIM card is 1000, plus the topups of its number in the
    files, minus its calls and messages in the files. *)
Theorem C155_accounts x params g seed start step duration folder del fs c w w' fs' :
  simulated x params g seed start step duration folder del fs c w w' fs' ->
  forall po sim number, nth_error (w_pops w) (k_sims_pop c) = Some po -> In sim (p_ids po) -> holds w (k_msisdn c) sim number ->
  holds w' (k_main_acct c) sim (VNum (Q2Qc 1000 + sum_of "CUSTOMER_NUMBER" number (recorded fs' folder "topups")
    - sum_of "MSISDN_A" number (recorded fs' folder "voice_cdr") - sum_of "MSISDN_A" number (recorded fs' folder "sms_cdr"))%Qc).
Proof.
  intros H po sim number Hpo Hin Hn. destruct (simulated_scenario _ _ _ _ _ _ _ _ _ _ _ _ _ _ H) as (u & h & subs & sims & ant & C & R & T & Na & Wt & D & Nd & _).
  destruct H as (_ & _ & _ & St & _ & tr & Hr).
  apply (C140_balance_from_the_files w c (of_geography x) u h subs sims ant duration folder del fs w' fs' tr C R Na Nd St Hr sim number); [exact Hn|].
  destruct (tel_sims _ _ _ _ _ _ _ _ _ _ _ T) as (_ & _ & po' & E & Ei). rewrite Hpo in E. injection E as <-. rewrite Ei in Hin.
  apply (tel_account _ _ _ _ _ _ _ _ _ _ _ T sim Hin). reflexivity.
Qed.
Print Assumptions C155_accounts.

(** No number is topped up more often than it called and texted. *)
Theorem C155_no_more_topups x params g seed start step duration folder del fs c w w' fs' number :
  simulated x params g seed start step duration folder del fs c w w' fs' ->
  length (of_whom "CUSTOMER_NUMBER" number (recorded fs' folder "topups")) <=
  length (of_whom "MSISDN_A" number (recorded fs' folder "voice_cdr")) + length (of_whom "MSISDN_A" number (recorded fs' folder "sms_cdr")).
Proof.
  intros H. destruct (simulated_scenario _ _ _ _ _ _ _ _ _ _ _ _ _ _ H) as (u & h & subs & sims & ant & C & R & T & Na & Wt & D & Nd & _).
  destruct H as (_ & _ & _ & St & _ & tr & Hr).
  exact (C152_no_more_topups_in_the_files w c (of_geography x) u h subs sims ant duration folder del fs w' fs' tr number C R Na D Wt Nd St Hr).
Qed.
Print Assumptions C155_no_more_topups.

(** What the five logs tell was true when it was logged. *)
Theorem C155_lines_true x params g seed start step duration folder del fs c w w' fs' :
  simulated x params g seed start step duration folder del fs c w w' fs' ->
  exists n unhealthy healthy, covers step duration n /\
  forall id tells, In (id, tells) [("voice_cdr", a_call); ("sms_cdr", a_message); ("topups", a_topup); ("mobility_logs", a_move); ("cell_status", a_status (of_geography x) unhealthy healthy)]%string ->
  exists pasts, Forall2 (true_then tells w c (steps_of 6 n)) pasts (recorded fs' folder id) /\ StronglySorted earlier pasts.
Proof.
  intros H. destruct (simulated_scenario _ _ _ _ _ _ _ _ _ _ _ _ _ _ H) as (u & h & subs & sims & ant & C & R & T & Na & Wt & D & Nd & Sc & Sh & Rs & Est).
  destruct H as (_ & _ & Hs & St & _ & tr & Hr).
  destruct (C139_lines_true w c (of_geography x) u h subs sims ant duration folder del fs w' fs' tr C R Na St Hr) as (n & Hc & A).
  destruct (C149_lines_true w c (of_geography x) u h subs sims ant duration folder del fs w' fs' tr C Sc Rs ltac:(rewrite Est; unfold second in Hs; lia) St Hr) as (n' & Hc' & B).
  rewrite Est in Hc, Hc'. assert (n' = n) by (eapply covers_unique; eassumption). subst n'.
  exists n, u, h. split; [exact Hc|]. intros id tells Hin. destruct Hin as [E|[E|[E|Hin]]]; [apply A; cbn; tauto..|]. apply B. exact Hin.
Qed.
Print Assumptions C155_lines_true.

(** A subscriber is where their last line in mobility_logs tells, or where they were placed; a cell is as its last line in
    cell_status tells, or as it was made. *)
Theorem C155_places x params g seed start step duration folder del fs c w w' fs' :
  simulated x params g seed start step duration folder del fs c w w' fs' ->
  (forall k v, holds w' (k_cell c) k v <->
     last_shows "A_ID" "NEW_CELL" k v (recorded fs' folder "mobility_logs") \/ nothing_about "A_ID" k (recorded fs' folder "mobility_logs") /\ holds w (k_cell c) k v) /\
  (forall k v, holds w' (k_health c) k v <->
     last_shows "CELL_ID" "NEW_HEALTH_LEVEL" k v (recorded fs' folder "cell_status") \/ nothing_about "CELL_ID" k (recorded fs' folder "cell_status") /\ holds w (k_health c) k v).
Proof.
  intros H. destruct (simulated_scenario _ _ _ _ _ _ _ _ _ _ _ _ _ _ H) as (u & h & subs & sims & ant & C & R & T & Na & Wt & D & Nd & Sc & Sh & Rs & Est).
  destruct H as (_ & _ & Hs & St & _ & tr & Hr).
  destruct (C149_places_from_the_files w c (of_geography x) u h subs sims ant duration folder del fs w' fs' tr C ltac:(rewrite Est; unfold second in Hs; lia) St Hr) as [A B]. auto.
Qed.
Print Assumptions C155_places.

(** Such simulations exist for all seeds and durations, when there are enough numbers, edges in the graphs and steps that
    divide the hour. *)
Theorem C155_simulations_succeed x params g seed start step duration folder del fs :
  sane_sources x -> nobody_alone x params -> (0 < n_subscribers params)%Z -> (4 * n_subscribers params <= 7 * (10 ^ Z.of_nat (digits params) - 1))%Z ->
  (forall s m, (0 < n_agents params)%Z -> 0 < m -> sound_graph (nx_bipartite x s m (Z.to_nat (n_agents params)) (3#10)) m (Z.to_nat (n_agents params))) ->
  (forall s, sound_graph (nx_bipartite x s (Z.to_nat (n_subscribers params)) (Z.to_nat n_cells) (4#10)) (Z.to_nat (n_subscribers params)) (Z.to_nat n_cells)) ->
  (second <= step)%Z -> (step | hour)%Z -> (step | start)%Z -> startable fs folder del ->
  exists c w w' fs', simulated x params g seed start step duration folder del fs c w w' fs'.
Proof.
  intros S A Hn Hd Ha Hc H1 H2 H3 St. destruct (C154_succeeds x params g seed start step S Hn Hd Ha Hc ltac:(unfold second in H1; lia) H2 H3) as (c & w & E).
  destruct (C154_run_completes _ _ _ _ _ _ _ _ duration folder del fs S E H1 A St) as (w' & fs' & tr & Hr). exists c, w, w', fs'. unfold simulated. eauto 10.
Qed.
Print Assumptions C155_simulations_succeed.

(** The sample of C154, with subscribers who call every hour or so, for two hours: the sizes of the five logs. *)
Definition busy_sources : cdr_sources :=
  mkCdrSources (mkSources (latitudes sample_sources) (longitudes sample_sources) (city_names sample_sources) (beta_1_999 sample_sources) (lomax_1_4 sample_sources) (fun _ => Q2Qc 49) vz)
    complete_graph (fun _ _ => 0) (fun _ => Q2Qc 1) (fun _ => Q2Qc 1) (fun _ => Q2Qc (1#2)) (fun _ => Q2Qc (1#2)) (fun _ => 1%Q) (fun l => l) (fun l => l).
Definition busy_params : cdr_params := mkCdrParams 3 2 2 1.
Definition sizes (folder : path) (r : result cdr * world) (fs : node lines) : option (list nat) :=
  match r with
  | (Ok _, w) => match run (2 * hour) folder false w fs with
                 | (Ok _, (_, fs', _)) => Some (map (fun id => length (recorded fs' folder id)) ["voice_cdr"; "sms_cdr"; "topups"; "mobility_logs"; "cell_status"]%string)
                 | _ => None
                 end
  | _ => None
  end.
Lemma busy_sane : sane_sources busy_sources.
Proof. split; [intros n; reflexivity|]. split; [intros n; discriminate|split; intros l; apply Permutation_refl]. Qed.
Example C155_example :
  (exists c w w' fs', simulated busy_sources busy_params stream 6 monday hour (2 * hour) logs_folder false disk c w w' fs') /\
  sizes logs_folder (build_cdr busy_sources busy_params (new_circus stream 6 monday hour)) disk = Some [1; 0; 1; 0; 2].
Proof.
  split; [|vm_compute; reflexivity]. destruct C154_example as (_ & A & _).
  apply C155_simulations_succeed; [exact busy_sane|exact A|reflexivity|discriminate| | |discriminate|apply Z.divide_refl|exists 406992%Z; reflexivity|exact logging_startable].
  - intros s m _ Hm. apply complete_sound; [exact Hm|cbn; lia].
  - intros s. apply complete_sound; [cbn; lia|pose proof n_cells_pos; lia].
Qed.
