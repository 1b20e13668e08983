(** The construction of the scenario of tests/scenarios/test_cdr.py (C153). *)
From Verif Require Import Base BaseFacts Rng RngFacts Utils UtilsFacts Relationship RelationshipFacts SpecRelationship RelationshipProps
  Frame Gens GensProps Clock SpecClock ClockProps Attribute AttributeFacts World Story Ops Circus SpecStory PopMore Geography SpecWorld SpecPopulation SpecLedger SpecRecords GeographyRun GeographyBuild
  Components ComponentsFacts Cdr CdrSetup CdrChoice CdrSubs SpecCdrSetup CdrSubsProps Samples PropGeography.
From Coq Require Import Permutation Lqa.
Local Open Scope nat_scope.

Lemma new_circus_eq g seed start step : exists sd ck, new_circus g seed start step = mkWorld g sd ck [] [] [] [] [] [] [] [] [].
Proof. unfold new_circus. destruct (next_seed _) as [z sd]. eauto. Qed.
Lemma mapping_bounds ids : forall opss, length opss = length ids -> Forall good_operators opss ->
  length ids <= length (subs_ops_mapping ids opss) <= 4 * length ids.
Proof.
  intros opss L G. rewrite mapping_length by exact L. rewrite <- L. clear L. induction G as [|o opss (G1 & _) G IH]; cbn [map list_sum fold_right length]; [lia|].
  change (fold_right Nat.add 0 (map (@length val) opss)) with (list_sum (map (@length val) opss)). lia.
Qed.

(** ** C153.  Whatever the seed and the sizes: subscribers get one to four SIM cards of different operators, every
    card belongs to one of them, has 1000 on its account and a number of its own. *)
Theorem C153_subscribers_and_sims x params g seed start step subs sims recharge w :
  create_subs_and_sims x params (new_circus g seed start step) = (Ok (subs, sims, recharge), w) ->
  exists owned agents operator account number subscribers simcards,
    telephony w params subs sims owned agents operator account number subscribers simcards /\
    nth_error (w_gens w) recharge = Some (GConst (vz 1000)).
Proof.
  destruct (new_circus_eq g seed start step) as (sd & ck & ->). intros H.
  destruct (Z.leb_spec (n_subscribers params) 0) as [N|Hn].
  { unfold create_subs_and_sims in H. rewrite (proj2 (Z.leb_le _ _)) in H by exact N. discriminate. }
  destruct (create_subs_does x params g sd ck Hn) as (opss & gs & Lo & Go & D). cbn zeta in D.
  destruct (does_ok _ _ _ _ _ _ D H) as (_ & df & numbs & ws & rs & s1 & rel_sims & s2 & rel_agents & sd' & g0 & g1 & g3 & g4 & Er & Eg & L & Nd & Hnum & Hw & Ers & Lr & E1 & E2 & ->).
  injection Er as -> -> ->. clear D H.
  exists 0, 1, 0, 1, 2, (subs_ids params), (sims_ids (length (subs_ops_mapping (subs_ids params) opss))). split; [|reflexivity].
  eapply (built_telephony params _ opss df numbs rs g s1 s2 rel_sims rel_agents); try eassumption; try reflexivity.
  - intros a b Hab. pose proof (bipartite_spec _ _ _ _ _ Eg) as F. rewrite Forall_forall in F. exact (F _ Hab).
  - split; [reflexivity|]. eexists. split; [reflexivity|]. split; reflexivity.
  - split; [reflexivity|]. eexists. split; [reflexivity|]. repeat split.
Qed.
Print Assumptions C153_subscribers_and_sims.

(** The construction succeeds when there are enough numbers for four cards each, and edges in the graph of agents ... *)
Theorem C153_succeeds x params g seed start step :
  (0 < n_subscribers params)%Z -> (4 * n_subscribers params <= 7 * (10 ^ Z.of_nat (digits params) - 1))%Z ->
  (forall s m, (0 < n_agents params)%Z -> 0 < m -> sound_graph (nx_bipartite x s m (Z.to_nat (n_agents params)) (3#10)) m (Z.to_nat (n_agents params))) ->
  exists r w, create_subs_and_sims x params (new_circus g seed start step) = (Ok r, w).
Proof.
  intros Hn Hd Hg. destruct (new_circus_eq g seed start step) as (sd & ck & ->).
  destruct (create_subs_does x params g sd ck Hn) as (opss & gs & Lo & Go & D). cbn zeta in D.
  pose proof (mapping_bounds _ _ Lo Go) as B. assert (Ls : length (subs_ids params) = Z.to_nat (n_subscribers params)) by (unfold subs_ids; now rewrite map_length, build_ids_length).
  assert (La : length (agent_ids params) = Z.to_nat (n_agents params)) by (unfold agent_ids; now rewrite map_length, build_ids_length).
  destruct (does_runs _ _ _ _ D) as (r & w & E & _); [|eauto]. split; [unfold enough_numbers; lia|].
  set (m := length (subs_ops_mapping _ _)) in *. assert (Lm : length (sims_ids m) = m) by (unfold sims_ids; rewrite map_length, build_ids_length; lia).
  destruct (Z.ltb_spec 0 (n_agents params)) as [Ha|Ha].
  - destruct (Hg gs m Ha ltac:(lia)) as [G1 G2].
    destruct (bipartite_edges (sims_ids m) (agent_ids params) (3#10) (nx_bipartite x gs (length (sims_ids m)) (length (agent_ids params)) (3#10))) as (df & E & _).
    + now rewrite Lm, La.
    + intros X. rewrite X in Lm. cbn in Lm. lia.
    + intros X. rewrite X in La. cbn in La. lia.
    + lra.
    + now rewrite Lm, La.
    + eauto.
  - exists []. unfold make_random_bipartite_data. rewrite La. replace (Z.to_nat (n_agents params)) with 0 by lia. cbn [Nat.eqb]. now rewrite orb_true_r.
Qed.
Print Assumptions C153_succeeds.

(** ... and raises when there are fewer numbers than subscribers. *)
Theorem C153_too_few_numbers x params g seed start step : (7 * (10 ^ Z.of_nat (digits params) - 1) < n_subscribers params)%Z ->
  exists e w, create_subs_and_sims x params (new_circus g seed start step) = (Err e, w).
Proof.
  intros Hd. destruct (new_circus_eq g seed start step) as (sd & ck & ->).
  assert (Hn : (0 < n_subscribers params)%Z). { pose proof (Z.pow_pos_nonneg 10 (Z.of_nat (digits params)) ltac:(lia) ltac:(lia)). lia. }
  destruct (create_subs_does x params g sd ck Hn) as (opss & gs & Lo & Go & D). cbn zeta in D.
  pose proof (mapping_bounds _ _ Lo Go) as B. assert (Ls : length (subs_ids params) = Z.to_nat (n_subscribers params)) by (unfold subs_ids; now rewrite map_length, build_ids_length).
  destruct D as [((X & _) & _)|(_ & D)]; [|exact D]. unfold enough_numbers in X. lia.
Qed.
Print Assumptions C153_too_few_numbers.

(** With complete graphs, 3 subscribers, 2 agents and numbers of one digit. *)
Definition complete_graph (_ : N) (n m : nat) (_ : Q) : list (nat * nat) := flat_map (fun i => map (fun j => (i, n + j)) (seq 0 m)) (seq 0 n).
Lemma complete_sound s n m p : 0 < n -> 0 < m -> sound_graph (complete_graph s n m p) n m.
Proof.
  intros Hn Hm. split.
  - destruct n as [|n]; [lia|]. destruct m as [|m]; [lia|]. discriminate.
  - apply Forall_forall. intros e He. unfold complete_graph in He. apply in_flat_map in He as (i & Hi & He). apply in_map_iff in He as (j & <- & Hj). apply in_seq in Hi, Hj. cbn. lia.
Qed.
Definition sample_cdr_sources : cdr_sources :=
  mkCdrSources sample_sources complete_graph (fun _ k => N.to_nat (k mod 3)%N) (fun _ => Q2Qc 1) (fun _ => Q2Qc 1) (fun _ => Q2Qc (1#2)) (fun _ => Q2Qc (1#2))
    (fun _ => 1%Q) (fun l => l) (fun l => l).
Definition sample_cdr_params : cdr_params := mkCdrParams 3 2 2 1.
Example C153_example :
  (exists r w, create_subs_and_sims sample_cdr_sources sample_cdr_params (new_circus stream 123456 monday hour) = (Ok r, w)) /\
  match create_subs_and_sims sample_cdr_sources sample_cdr_params (new_circus stream 123456 monday hour) with
  | (Ok (subs, sims, _), w) => (map (fun i => length (items w 0 (VStr ("SUBS_000000000" ++ i)))) ["0"; "1"; "2"]%string, length (w_pops w), length (items w 1 (VStr "SIMS_0000000000"%string))) = ([2; 4; 2], 2, 2)
  | _ => False
  end.
Proof.
  split; [|vm_compute; reflexivity].
  apply C153_succeeds; [reflexivity|discriminate|]. intros s m _ Hm. apply complete_sound; [exact Hm|cbn; lia].
Qed.
