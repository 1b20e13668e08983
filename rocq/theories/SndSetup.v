(** Model of the construction of the scenario of tests/scenarios/test_snd.py (class SndScenario). *)
From Verif Require Import Base BaseFacts Rng Utils Relationship Frame Gens Clock Attribute World Story Ops Circus Geography Components Cdr CdrSetup Snd.

(** What the libraries outside the project provide: the edges of networkx's bipartite random graphs (given the
    seed, the sizes of the two groups and the probability), the maps from a raw draw to a value of numpy's
    exponential(1), pareto(1.5) and pareto(1.2); the names and texts of Faker (given its seed) at its successive
    calls; the order in which python lists the elements of a set; how a timestamp is printed. *)
Record snd_sources := mkSndSources {
  snd_bipartite : N -> nat -> nat -> Q -> list (nat * nat);
  snd_exponential : N -> Qc;
  snd_lomax_1_5 : N -> Qc;
  snd_lomax_1_2 : N -> Qc;
  faker_names : N -> nat -> val;
  faker_texts : N -> nat -> val;
  snd_states_order : list string -> list string;
  snd_time_format : Z -> val
}.

(** test_snd.py:20-34 params *)
Record snd_params := mkSndParams {
  how_many_agents : Z;
  how_many_dealers : Z;
  how_many_distributors : Z;
  agent_degree : Q;
  dealer_sims : Z;
  distributor_sims : Z
}.

(** ** test_snd.py:58-87 create_distributors_with_sims.  Result: the population, its relationship SIM, the attribute
    SIMS_TO_RESTOCK, the generator of SIMs. *)
Definition create_distributors (params : snd_params) : M (nat * nat * nat * nat) :=
  let* pg := get w_prng in
  let* ids := alloc_gen (GSeq 0 "DISTRIBUTOR_" 1) in
  let* distributors := create_population "distros" (Some ids) (Some (how_many_distributors params)) None in
  let* sims := create_relationship distributors "SIM" None in
  let* sim_generator := alloc_gen (GSeq 0 "SIM_" 30) in
  let* sim_ids := generate sim_generator (distributor_sims params) in
  let* po := deref w_pops distributors in
  let* seed := next_of_seeder in
  let* (sims_dist, _) := lift (make_random_assign sim_ids (p_ids po) (random_state pg seed)) in
  let* _ := rel_add sims (map snd sims_dist) (map fst sims_dist) in
  let* to_restock := create_attribute distributors "SIMS_TO_RESTOCK" (Some (VScalar (vz 0))) None None in
  ret (distributors, sims, to_restock, sim_generator).

(** self.get_story(name) (circus.py:85-95), at the position that Snd.v gives it. *)
Definition get_story_at (name : string) (a : nat) : M unit :=
  let* stories := get w_stories in
  match find_story name stories 0 with
  | None => raise AttributeError
  | Some b => if b =? a then ret tt else raise Unmodelled
  end.
(** The same for a new story. *)
Definition placed (a b : nat) : M unit := if b =? a then ret tt else raise Unmodelled.

(** ** test_snd.py:89-127 add_distributor_recharge_story.  The default timer generator,
    ConstantDependentGenerator(value=-1), has no state: it is created here. *)
Definition add_distributor_recharge (x : snd_sources) (distributors sims to_restock sim_generator : nat) : M unit :=
  let* activity := default_activity in
  let* back := default_back in
  let* never := alloc_tgen (TConst (-1)) in
  let* restocking := create_story (snd_states_order x) "distributor_restock" distributors "DISTRIBUTOR_ID" (activity, back) None never true in
  set_operations restocking (snd_restock (mkSnd distributors 0 0 0 sims 0 0 0 0 to_restock 0 0 sim_generator 0 0 0 0 (snd_time_format x))).

(** ** test_snd.py:129-158 create_dealers_and_sims_stock.  Result: the population and its relationship SIM. *)
Definition broke_dealer : val := VStr "broke_dealer".
Definition broke_sims : list val := map VStr ["SIM_OF_BROKE_DEALER_0"; "SIM_OF_BROKE_DEALER_1"; "SIM_OF_BROKE_DEALER_2"]%string.
Definition create_dealers (params : snd_params) : M (nat * nat) :=
  let* pg := get w_prng in
  let* ids := alloc_gen (GSeq 0 "DEALER_" 3) in
  let* dealers := create_population "dealers" (Some ids) (Some (how_many_dealers params)) None in
  let* sims := create_relationship dealers "SIM" None in
  let sim_ids := map VStr (build_ids (dealer_sims params) 0 "SIM_" 10) in
  let* po := deref w_pops dealers in
  let* seed := next_of_seeder in
  let* (sims_dealer, _) := lift (make_random_assign sim_ids (p_ids po) (random_state pg seed)) in
  let* _ := rel_add sims (map snd sims_dealer) (map fst sims_dealer) in
  let* _ := rel_add sims (map (fun _ => broke_dealer) broke_sims) broke_sims in
  ret (dealers, sims).

(** ** test_snd.py:160-182 create_agents.  Result: the population, its relationship SIM, the attribute AGENT_NAME. *)
Definition create_agents (x : snd_sources) (params : snd_params) : M (nat * nat * nat) :=
  let* ids := alloc_gen (GSeq 0 "AGENT_" 3) in
  let* agents := create_population "agents" (Some ids) (Some (how_many_agents params)) None in
  let* sims := create_relationship agents "SIM" None in
  let* seed := next_of_seeder in
  let* names := alloc_gen (GOracle (faker_names x seed) 0) in
  let* agent_name := create_attribute agents "AGENT_NAME" None (Some names) None in
  ret (agents, sims, agent_name).

(** ** test_snd.py:184-214 connect_agent_to_dealer.  Result: the relationship DEALERS. *)
(** relationship.add_relations with a scalar weight *)
Definition rel_add_scalar (r : nat) (froms tos : list val) (q : Q) : M unit :=
  let* rel := deref w_rels r in
  let* rel' := lift (add_relations rel froms tos (WScalar q)) in
  put_rel r rel'.
Definition connect_agents (x : snd_sources) (params : snd_params) (agents dealers : nat) : M nat :=
  let* pg := get w_prng in
  let deg_prob := (agent_degree params / inject_Z (how_many_agents params) * inject_Z (how_many_dealers params))%Q in
  let* agent_weight_gen := alloc_gen (GNumpy (NpOther (snd_exponential x)) (random_state pg 1) None) in
  let* apo := deref w_pops agents in
  let* dpo := deref w_pops dealers in
  let* seed := next_of_seeder in
  let* customers := lift (make_random_bipartite_data (p_ids apo) (p_ids dpo) deg_prob
                            (snd_bipartite x seed (length (p_ids apo)) (length (p_ids dpo)) deg_prob)) in
  let* rel := create_relationship agents "DEALERS" None in
  let* weights := generate agent_weight_gen (Z.of_nat (length customers)) in
  let* _ := rel_add_weighted rel (map fst customers) (map snd customers) weights in
  let* _ := rel_add_scalar rel (p_ids apo) (map (fun _ => broke_dealer) (p_ids apo)) 4 in
  ret rel.

(** ** test_snd.py:216-231 connect_dealers_to_distributors.  Result: the relationship DISTRIBUTOR, the attribute
    BULK_BUY_SIZE. *)
Definition connect_dealers (x : snd_sources) (dealers distributors : nat) : M (nat * nat) :=
  let* pg := get w_prng in
  let* rel := create_relationship dealers "DISTRIBUTOR" None in
  let* seed := next_of_seeder in
  let* dpo := deref w_pops dealers in
  let* spo := deref w_pops distributors in
  let* (idx, _) := lift (choice (length (p_ids spo)) (Z.to_nat (p_size dpo)) (random_state pg seed)) in
  let* assigned := lift (take idx (p_ids spo)) in
  let* _ := rel_add rel (p_ids dpo) assigned in
  let* bulk_seed := next_of_seeder in
  let* bulk_gen := alloc_gen (GPareto (Q2Qc 500) true (snd_lomax_1_5 x) (random_state pg bulk_seed)) in
  let* bulk_size := create_attribute dealers "BULK_BUY_SIZE" None (Some bulk_gen) None in
  ret (rel, bulk_size).

(** ** test_snd.py:295-371 add_agent_sim_purchase_story *)
Definition one_two_three : list val := [vz 1; vz 2; vz 3].
Definition add_purchases (x : snd_sources) (agents agent_sims dealer_sims dealers_of : nat) : M unit :=
  let* pg := get w_prng in
  let* timegen := alloc_cyclic high_week_days_profile in
  let* seed := next_of_seeder in
  let* activity := alloc_gen (GNumpy (NpChoice one_two_three None) (random_state pg seed) None) in
  let* back := default_back in
  let* none := alloc_gen (GConst (vz 0)) in
  let* none' := alloc_gen (GConst (vz 0)) in
  let* purchase := create_story (snd_states_order x) "purchases" agents "AGENT" (activity, back) (Some [("on_holiday"%string, (none, none'))]) timegen true in
  let* _ := placed purchases purchase in
  set_operations purchase (snd_purchases (mkSnd 0 0 agents 0 0 dealer_sims agent_sims dealers_of 0 0 0 0 0 0 0 0 0 (snd_time_format x))).

(** ** test_snd.py:233-293 add_dealer_bulk_sim_purchase_story *)
Definition add_bulk_purchases (x : snd_sources) (dealers distributors distro_sims dealer_sims distro_of to_restock : nat) : M unit :=
  let* timegen := alloc_cyclic high_week_days_profile in
  let* activity := alloc_gen (GConst (vz 100)) in
  let* back := default_back in
  let* build_purchases := create_story (snd_states_order x) "bulk_purchases" dealers "DEALER_ID" (activity, back) None timegen true in
  let* _ := placed bulk_purchases build_purchases in
  let* _ := get_story_at "distributor_restock" restock in
  set_operations build_purchases (snd_bulk_purchases (mkSnd distributors dealers 0 0 distro_sims dealer_sims 0 0 distro_of to_restock 0 0 0 0 0 0 0 (snd_time_format x))).

(** ** test_snd.py:373-434 add_agent_holidays_story.  Result: the two generators of the column STATES. *)
Definition add_holidays (x : snd_sources) (agents : nat) : M (nat * nat) :=
  let* pg := get w_prng in
  let* time_gen := alloc_cyclic high_week_days_profile in
  let* s1 := next_of_seeder in
  let* start_activity := alloc_gen (GPareto (Q2Qc (1#4)) false (snd_lomax_1_2 x) (random_state pg s1)) in
  let* s2 := next_of_seeder in
  let* end_activity := alloc_gen (GPareto (Q2Qc 150) false (snd_lomax_1_2 x) (random_state pg s2)) in
  let* back := default_back in
  let* start := create_story (snd_states_order x) "agent_start_holidays" agents "AGENT" (start_activity, back) None time_gen true in
  let* _ := placed start_holidays start in
  let* back' := default_back in
  let* stops := create_story (snd_states_order x) "agent_stops_holidays" agents "AGENT" (end_activity, back') None time_gen false in
  let* _ := placed stops_holidays stops in
  let* _ := get_story_at "purchases" purchases in
  let* going := alloc_gen (GConst (VStr "going")) in
  let* _ := set_operations start (snd_start_holidays (mkSnd 0 0 agents 0 0 0 0 0 0 0 0 0 0 0 0 going 0 (snd_time_format x))) in
  let* returning := alloc_gen (GConst (VStr "returning")) in
  let* _ := set_operations stops (snd_stops_holidays (mkSnd 0 0 agents 0 0 0 0 0 0 0 0 0 0 0 0 0 returning (snd_time_format x))) in
  ret (going, returning).

(** ** test_snd.py:436-492 add_agent_reviews_stories.  Result: the population of the reviews, the generators of their
    ids and texts. *)
Definition add_reviews (x : snd_sources) (agents : nat) : M (nat * nat * nat) :=
  let* pg := get w_prng in
  let* timegen := alloc_cyclic high_week_days_profile in
  let* seed := next_of_seeder in
  let* activity := alloc_gen (GNumpy (NpChoice one_two_three None) (random_state pg seed) None) in
  let* rev := create_population "rev" None (Some 0%Z) None in
  let* _ := create_attribute rev "DATE" None None None in
  let* _ := create_attribute rev "TEXT" None None None in
  let* _ := create_attribute rev "AGENT_ID" None None None in
  let* _ := create_attribute rev "AGENT_NAME" None None None in
  let* back := default_back in
  let* review_story := create_story (snd_states_order x) "agent_reviews" agents "AGENT" (activity, back) None timegen true in
  let* _ := placed reviews review_story in
  let* review_ids := alloc_gen (GSeq 0 "REVIEW_ID" 10) in
  let* text_seed := next_of_seeder in
  let* texts := alloc_gen (GOracle (faker_texts x text_seed) 0) in
  let* _ := set_operations review_story (snd_reviews (mkSnd 0 0 agents rev 0 0 0 0 0 0 0 0 0 review_ids texts 0 0 (snd_time_format x))) in
  ret (rev, review_ids, texts).

(** ** test_snd.py:38-56 __init__, after Circus.__init__.
    Simplification: empty populations and stocks (pandas' frames without rows) are not modelled. *)
Definition build_snd (x : snd_sources) (params : snd_params) : M snd_names :=
  if existsb (fun n => n <=? 0)%Z [how_many_agents params; how_many_dealers params; how_many_distributors params; dealer_sims params; distributor_sims params]
  then raise Unmodelled
  else
    let* (distributors, distro_sims, to_restock, sim_generator) := create_distributors params in
    let* _ := add_distributor_recharge x distributors distro_sims to_restock sim_generator in
    let* (dealers, dealer_sims) := create_dealers params in
    let* (agents, agent_sims, agent_name) := create_agents x params in
    let* dealers_of := connect_agents x params agents dealers in
    let* (distro_of, bulk_size) := connect_dealers x dealers distributors in
    let* _ := add_purchases x agents agent_sims dealer_sims dealers_of in
    let* _ := add_bulk_purchases x dealers distributors distro_sims dealer_sims distro_of to_restock in
    let* (going, returning) := add_holidays x agents in
    let* (rev, review_ids, texts) := add_reviews x agents in
    ret (mkSnd distributors dealers agents rev distro_sims dealer_sims agent_sims dealers_of distro_of to_restock bulk_size agent_name
           sim_generator review_ids texts going returning (snd_time_format x)).
