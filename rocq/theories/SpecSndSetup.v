(** Specification vocabulary: the supply chain that the scenario of tests/scenarios/test_snd.py constructs. *)
From Verif Require Import Base Rng Utils Relationship SpecRelationship Frame Gens GensProps Clock Attribute World Story Ops Circus Fs SpecStory SpecPopulation SpecCircus SpecLedger SpecRecords Geography CdrSetup SpecCdrSetup Snd SndSetup SpecHolidays.
From Coq Require Import Permutation.
Local Open Scope nat_scope.

(** The values "<prefix>0..00", "<prefix>0..01", ...: [n] of them, with numbers of [width] digits. *)
Definition serials (prefix : string) (width : nat) (n : Z) (vs : list val) : Prop :=
  NoDup vs /\ forall v, In v vs <-> exists k, (0 <= k < n)%Z /\ v = VStr (prefix ++ zfill width (str_of_Z k)).

Record supply_chain (w : world) (params : snd_params) (c : snd_names) (distributors dealers agents : list val) : Prop := {
  chain_distros : has_population w "distros" (n_distros c) distributors /\ serials "DISTRIBUTOR_" 1 (how_many_distributors params) distributors;
  chain_dealers : has_population w "dealers" (n_dealers c) dealers /\ serials "DEALER_" 3 (how_many_dealers params) dealers;
  chain_agents : has_population w "agents" (n_agents c) agents /\ serials "AGENT_" 3 (how_many_agents params) agents;
  chain_reviews : has_population w "rev" (n_reviews c) [];
  chain_names : relationship_at w (n_distros c) "SIM" (n_distro_sims c) /\ relationship_at w (n_dealers c) "SIM" (n_dealer_sims c) /\ relationship_at w (n_agents c) "SIM" (n_agent_sims c) /\
    relationship_at w (n_agents c) "DEALERS" (n_dealers_of c) /\ relationship_at w (n_dealers c) "DISTRIBUTOR" (n_distro_of c);
  (* the distributors share their SIMs, each SIM has one owner *)
  chain_distro_sims : serials "SIM_" 30 (distributor_sims params) (map snd (pairs_of w (n_distro_sims c))) /\ incl (map fst (pairs_of w (n_distro_sims c))) distributors;
  (* so do the dealers; the broke dealer, who is not one of them, has three *)
  chain_broke : ~ In (VStr "broke_dealer") dealers;
  chain_dealer_sims : exists theirs, Permutation (pairs_of w (n_dealer_sims c)) (theirs ++ map (fun sim => (VStr "broke_dealer", VStr sim))
      ["SIM_OF_BROKE_DEALER_0"; "SIM_OF_BROKE_DEALER_1"; "SIM_OF_BROKE_DEALER_2"]%string) /\
    serials "SIM_" 10 (dealer_sims params) (map snd theirs) /\ incl (map fst theirs) dealers;
  chain_agent_sims : pairs_of w (n_agent_sims c) = [];
  (* agents may buy from the broke dealer and from dealers, dealers from one distributor *)
  chain_dealers_of : (forall a, In a agents -> In (VStr "broke_dealer") (items w (n_dealers_of c) a)) /\
    (forall a d, In d (items w (n_dealers_of c) a) -> In a agents /\ (d = VStr "broke_dealer" \/ In d dealers));
  chain_distro_of : forall d, In d dealers -> exists s, In s distributors /\ items w (n_distro_of c) d = [s];
  chain_to_restock : forall d, In d distributors -> only_holds w (n_to_restock c) d (vz 0);
  chain_bulk_size : forall d, In d dealers -> exists z, (500 <= z)%Z /\ only_holds w (n_bulk_size c) d (vz z);
  (* the words for the two kinds of events of the log "holidays" *)
  chain_states : (forall v, can_give (w_gens w) (n_going c) v <-> v = VStr "going") /\ (forall v, can_give (w_gens w) (n_returning c) v <-> v = VStr "returning");
  (* agents on holidays are not active and do not return by themselves *)
  chain_holidays : auto_reset w purchases true /\ fair_judge w /\ forall s, nth_error (w_stories w) purchases = Some s -> forall i q, In i agents ->
    (activity_in s i "on_holiday" q -> q == 0)%Q /\ (back_probability_in s i "on_holiday" q -> q == 0)%Q
}.

(** What is assumed of the random numbers and of the orders of sets. *)
Definition sane_snd_sources (x : snd_sources) : Prop :=
  (forall n, 0 < snd_exponential x n)%Qc /\ (forall n, 0 <= snd_lomax_1_5 x n)%Qc /\ (forall l, Permutation (snd_states_order x l) l).

(** Some agents, dealers, distributors; some SIMs; the mean number of dealers per agent, and the edges that networkx
    draws with the probability that the scenario computes from it. *)
Definition feasible (x : snd_sources) (params : snd_params) : Prop :=
  (0 < how_many_agents params)%Z /\ (0 < how_many_dealers params)%Z /\ (0 < how_many_distributors params)%Z /\ (0 < dealer_sims params)%Z /\ (0 < distributor_sims params)%Z /\
  ~ (agent_degree params == 0)%Q /\
  let p := (agent_degree params / inject_Z (how_many_agents params) * inject_Z (how_many_dealers params))%Q in
  let a := Z.to_nat (how_many_agents params) in let d := Z.to_nat (how_many_dealers params) in
  forall s, sound_graph (snd_bipartite x s a d p) a d.

(** The scenario [c] is constructed in the circus [w]; it runs for [duration], ends in [w'] and leaves the files [fs']. *)
Definition snd_simulated (x : snd_sources) (params : snd_params) (g : prng) (seed : N) (start step duration : Z) (folder : path) (del : bool) (fs : node lines)
    (c : snd_names) (w w' : world) (fs' : node lines) : Prop :=
  sane_snd_sources x /\ (second <= step)%Z /\ startable fs folder del /\
  build_snd x params (new_circus g seed start step) = (Ok c, w) /\ exists tr, run duration folder del w fs = (Ok tt, (w', fs', tr)).
