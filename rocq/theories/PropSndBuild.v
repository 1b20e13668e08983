(** The scenario of tests/scenarios/test_snd.py from its construction to its last log (C156). *)
From Verif Require Import Base BaseFacts Rng RngFacts Utils Relationship SpecRelationship Frame Gens GensProps Clock SpecClock ClockProps Attribute World Story Ops Circus Fs
  SpecStory SpecOps SpecWorld SpecPopulation SpecCircus SpecLocal SpecSupply SpecFs SpecLedger SpecRecords SpecSafe Geography SpecGeography GeographyRun GeographyBuild
  Cdr SpecCdr CdrSetup SpecCdrSetup CdrBuild CdrReady Samples PropGeography PropCdrSetup PropCdr PropCdrBuild Snd SpecSnd SpecSndReady SpecArchive SpecSndReviews SndSetup SndBuild SpecSndSetup SndReady PropSnd PropSndSafe.
From Coq Require Import Permutation Lqa.
Local Open Scope nat_scope.

Lemma built_snd x params g seed start step c w : sane_snd_sources x -> build_snd x params (new_circus g seed start step) = (Ok c, w) ->
  snd_scenario params w c /\ c_date (w_clock w) = start /\ c_step (w_clock w) = step.
Proof.
  intros S H. destruct (new_circus_clock g seed start step) as (sd & ck & E & <- & <-). rewrite E in H. clear E.
  destruct (existsb (fun n => n <=? 0)%Z [how_many_agents params; how_many_dealers params; how_many_distributors params; dealer_sims params; distributor_sims params]) eqn:Ez.
  { unfold build_snd in H. rewrite Ez in H. discriminate. }
  assert (Sz : sizes_ok params). { cbn [existsb] in Ez. repeat (apply orb_false_iff in Ez as [?X Ez]). constructor; lia. }
  destruct (build_snd_may x params g sd ck Sz S) as [(a & w1 & E & K)|(_ & e & w1 & E)]; rewrite E in H; [|discriminate]. injection H as <- <-. exact K.
Qed.

(** ** C156.  Whatever the seed, the parameters, and what networkx, numpy and Faker draw: a scenario that could be
    constructed has its six stories, its distributors, dealers and agents, their stocks of SIMs and who buys from whom
    in place, and meets all that C145 and C150 ask for. *)
Theorem C156_constructed x params g seed start step c w :
  sane_snd_sources x -> build_snd x params (new_circus g seed start step) = (Ok c, w) ->
  c_date (w_clock w) = start /\ c_step (w_clock w) = step /\
  exists distributors dealers agents,
    snd_circus w c distributors dealers agents /\ supply_chain w params c distributors dealers agents /\
    ((second <= step)%Z -> snd_ready w c distributors dealers agents) /\
    reviews_kept w c /\ ids_reserved w c 0 "REVIEW_ID" 10.
Proof.
  intros S H. destruct (built_snd _ _ _ _ _ _ _ _ S H) as ((ds & de & ag & C & T & R & V & I) & Ed & Est). rewrite Est in R. split; [exact Ed|]. split; [exact Est|]. exists ds, de, ag. auto.
Qed.
Print Assumptions C156_constructed.

(** The construction succeeds when there is somebody of every kind, edges in the graph, and steps that divide the
    hour. *)
Theorem C156_succeeds x params g seed start step :
  sane_snd_sources x -> feasible x params -> (0 < step)%Z -> (step | hour)%Z -> (step | start)%Z ->
  exists c w, build_snd x params (new_circus g seed start step) = (Ok c, w).
Proof.
  intros S F H1 H2 H3. destruct (new_circus_clock g seed start step) as (sd & ck & -> & <- & <-).
  assert (Sz : sizes_ok params) by (destruct F as (F1 & F2 & F3 & F4 & F5 & _); constructor; assumption).
  destruct (build_snd_may x params g sd ck Sz S) as [(a & w1 & E & K)|(N & _)]; [eauto|]. exfalso. apply N. split; [exact F|apply weekly_starts; assumption].
Qed.
Print Assumptions C156_succeeds.

(** Nothing that can happen to the constructed scenario makes it raise ... *)
Theorem C156_never_raises x params g seed start step c w hs :
  sane_snd_sources x -> build_snd x params (new_circus g seed start step) = (Ok c, w) -> (second <= step)%Z -> Forall (sensible w) hs -> exists wend, history w hs wend.
Proof.
  intros S H Hs Hh. destruct (built_snd _ _ _ _ _ _ _ _ S H) as ((ds & de & ag & C & T & R & _) & Ed & Est). rewrite Est in R. exact (C145_never_raises w c ds de ag hs C (R Hs) Hh).
Qed.
Print Assumptions C156_never_raises.

(** ... and it runs to the end of any duration. *)
Theorem C156_run_completes x params g seed start step c w duration folder del fs :
  sane_snd_sources x -> build_snd x params (new_circus g seed start step) = (Ok c, w) -> (second <= step)%Z -> startable fs folder del ->
  exists wend fs' tr, run duration folder del w fs = (Ok tt, (wend, fs', tr)).
Proof.
  intros S H Hs Hf. destruct (built_snd _ _ _ _ _ _ _ _ S H) as ((ds & de & ag & C & T & R & _) & Ed & Est). rewrite Est in R. exact (C145_run_completes w c ds de ag duration folder del fs C (R Hs) Hf).
Qed.
Print Assumptions C156_run_completes.

(** ** The scenario's test: "broke dealer should have maximum 3 successful sales". *)
Theorem C156_broke_dealer x params g seed start step duration folder del fs c w w' fs' :
  snd_simulated x params g seed start step duration folder del fs c w w' fs' ->
  length (of_whom "DEALER" (VStr "broke_dealer") (successful (recorded fs' folder "purchases"))) <= 3.
Proof.
  intros (S & Hs & St & B & tr & Hr). destruct (built_snd _ _ _ _ _ _ _ _ S B) as ((ds & de & ag & C & T & R & _) & Ed & Est).
  destruct (C142_stocks_from_the_files w c ds de ag duration folder del fs w' fs' tr C ltac:(rewrite Est; unfold second in Hs; lia) St Hr) as (_ & _ & K).
  specialize (K (VStr "broke_dealer") (chain_broke _ _ _ _ _ _ T)). etransitivity; [exact K|].
  destruct (chain_dealer_sims _ _ _ _ _ _ T) as (theirs & P & _ & I). apply (items_perm w _ (VStr "broke_dealer")) in P. rewrite (Permutation_length P). unfold about. rewrite filter_app.
  replace (filter _ theirs) with (@nil (val * val)); [apply le_n|]. symmetry. destruct (filter _ theirs) as [|[a b] l] eqn:E; [reflexivity|]. exfalso.
  assert (X : In (a, b) (filter (fun x : val * val => val_eqb (fst x) (VStr "broke_dealer")) theirs)) by (rewrite E; now left).
  apply filter_In in X as [X Y]. cbn in Y. apply val_eqb_eq in Y. subst a. apply (chain_broke _ _ _ _ _ _ T), I. apply in_map_iff. exists (VStr "broke_dealer", b). auto.
Qed.
Print Assumptions C156_broke_dealer.

(** With complete graphs: 2 agents, 2 dealers, one distributor. *)
Definition sample_snd_sources : snd_sources :=
  mkSndSources complete_graph (fun _ => Q2Qc 1) (fun _ => Q2Qc (1#2)) (fun _ => Q2Qc (1#2)) (fun _ k => vnat k) (fun _ k => vnat k) (fun l => l) vz.
Definition sample_snd_params : snd_params := mkSndParams 2 2 1 20 3 4.
Lemma sample_snd_sane : sane_snd_sources sample_snd_sources.
Proof. split; [intros n; reflexivity|]. split; [intros n; discriminate|intros l; apply Permutation_refl]. Qed.
Lemma sample_snd_feasible : feasible sample_snd_sources sample_snd_params.
Proof.
  repeat (split; [reflexivity|]). split; [discriminate|]. cbv zeta. intros s. apply complete_sound; cbn; lia.
Qed.
Definition snd_summary (r : result snd_names * world) : option (list string * list nat * list nat) :=
  match r with
  | (Ok c, w) => Some (map st_name (w_stories w), map (fun p => length (p_ids p)) (w_pops w),
                       map (fun r => length (pairs_of w r)) [n_distro_sims c; n_dealer_sims c; n_agent_sims c; n_dealers_of c; n_distro_of c])
  | _ => None
  end.
Example C156_example :
  sane_snd_sources sample_snd_sources /\ feasible sample_snd_sources sample_snd_params /\
  (exists c w, build_snd sample_snd_sources sample_snd_params (new_circus stream 123456 monday hour) = (Ok c, w)) /\
  snd_summary (build_snd sample_snd_sources sample_snd_params (new_circus stream 123456 monday hour)) =
    Some (["distributor_restock"; "purchases"; "bulk_purchases"; "agent_start_holidays"; "agent_stops_holidays"; "agent_reviews"]%string, [1; 2; 2; 0], [4; 6; 0; 6; 2]).
Proof.
  split; [exact sample_snd_sane|]. split; [exact sample_snd_feasible|]. split; [|vm_compute; reflexivity].
  apply C156_succeeds; [exact sample_snd_sane|exact sample_snd_feasible|reflexivity|apply Z.divide_refl|exists 406992%Z; reflexivity].
Qed.
