(** Model of the construction of the scenario of tests/scenarios/test_cdr.py (class CdrScenario). *)
From Verif Require Import Base BaseFacts Rng Utils Relationship Frame Gens Clock Attribute World Story Ops Circus Geography Components Cdr.

(** What the libraries outside the project provide: the edges of networkx's bipartite random graphs (given the
    seed, the sizes of the two groups and the probability), the skips of its Erdos-Renyi graphs, the maps from a raw
    draw to a value of numpy's exponential(1), pareto(1.1), beta(7, 3) and beta(3, 7); the probability of a topup
    given a balance (operations.logistic, on floats); the order in which python lists the elements of a set. *)
Record cdr_sources := mkCdrSources {
  of_geography : sources;
  nx_bipartite : N -> nat -> nat -> Q -> list (nat * nat);
  skips : Q -> N -> nat;
  exponential : N -> Qc;
  lomax_1_1 : N -> Qc;
  beta_7_3 : N -> Qc;
  beta_3_7 : N -> Qc;
  recharge_probability : Qc -> Q;
  set_order : list val -> list val;
  states_order : list string -> list string
}.

(** test_cdr.py:597 params; [digits] is the parameter length of the MSISDNGenerator, 6 in the code (196). *)
Record cdr_params := mkCdrParams {
  n_subscribers : Z;
  n_agents : Z;
  average_degree : Q;
  digits : nat
}.

(** ** numpy: RandomState.choice(range(n), size, replace=False, p=p) *)

(** mtrand.pyx: the positions found so far lose their weight, the others are drawn again from the
    normalised weights; among the new ones, each position counts once, in the order of its first appearance. *)
Definition without (p : list Q) (found : list nat) : list Q :=
  map (fun '(i, q) => if mem i found then 0%Q else q) (combine (seq 0 (length p)) p).
Definition normalised_cdf (p : list Q) : list Q := map (fun c => (c / qsum p)%Q) (cumsum 0 p).
Fixpoint fill_choice (fuel size : nat) (p : list Q) (found : list nat) (r : rng) : result (list nat * rng) :=
  if size <=? length found then Ok (found, r)
  else match fuel with
       | 0 => Err Diverges
       | S fuel' =>
           let (xs, r1) := draws uniform (size - length found) r in
           let new := uniq (map (search_right (normalised_cdf (without p found))) xs) in
           fill_choice fuel' size p (found ++ new) r1
       end.
(** Each round finds at least one position, so [size] rounds always suffice. *)
Definition choice_p_norep (n size : nat) (p : list Q) (r : rng) : result (list nat * rng) :=
  if negb (length p =? n) then Err ValueError
  else if existsb (fun q => Qltb q 0) p then Err ValueError
  else if negb (Qeq_bool (qsum p) 1) then Err ValueError
  else if n <? size then Err ValueError
  else if length (filter (fun q => Qltb 0 q) p) <? size then Err ValueError
  else fill_choice size size p [] r.

(** ** test_cdr.py:130-216 create_subs_and_sims *)

(** 151 *)
Definition operator_ids : list val := map VStr (build_ids 4 0 "OPERATOR_" 1).
Definition operator_weights : list Q := [8#10; 5#100; 1#10; 5#100]%Q.
(** 153-158 pick_operators, 161 map(pick_operators, number_of_operators) *)
Fixpoint pick_operators (quantities : list nat) (npgen : rng) : result (list (list val) * rng) :=
  match quantities with
  | [] => Ok ([], npgen)
  | qty :: quantities' =>
      let! (idx, npgen1) := choice_p_norep (length operator_ids) qty operator_weights npgen in
      let! ops := take idx operator_ids in
      let! (rest, npgen2) := pick_operators quantities' npgen1 in
      Ok (ops :: rest, npgen2)
  end.
(** 163-171: the frame has one row per subscriber, padded with None; stack() lists its cells row by row and
    drops the missing ones. *)
Definition subs_ops_mapping (ids : list val) (operators : list (list val)) : list (val * val) :=
  flat_map (fun '(i, ops) => map (fun o => (i, o)) ops) (combine ids operators).

Definition msisdn_prefixes : list string := ["472"; "473"; "475"; "476"; "477"; "478"; "479"]%string.

(** Simplification: without subscribers pandas works on frames without columns: not modelled.
    Result: the two populations and the generator of recharges. *)
Definition create_subs_and_sims (x : cdr_sources) (params : cdr_params) : M (nat * nat * nat) :=
  if (n_subscribers params <=? 0)%Z then raise Unmodelled
  else
    let* pg := get w_prng in
    let* npgen_seed := next_of_seeder in
    let npgen := random_state pg npgen_seed in
    let* subs_gen := alloc_gen (GSeq 0 "SUBS_" 10) in
    let* subs := create_population "subs" (Some subs_gen) (Some (n_subscribers params)) None in
    let* subs_pop := deref w_pops subs in
    let* (choices, npgen1) := lift (choice 4 (Z.to_nat (p_size subs_pop)) npgen) in
    let* (operators, _) := lift (pick_operators (map Datatypes.S choices) npgen1) in
    let mapping := subs_ops_mapping (p_ids subs_pop) operators in
    let* sims_gen := alloc_gen (GSeq 0 "SIMS_" 10) in
    let* sims := create_population "sims" (Some sims_gen) (Some (Z.of_nat (length mapping))) None in
    let* _ := create_attribute sims "OPERATOR" (Some (VValues (map snd mapping))) None None in
    let* recharge_gen := alloc_gen (GConst (vz 1000)) in
    let* _ := create_attribute sims "MAIN_ACCT" None (Some recharge_gen) None in
    let* sims_of_subs := create_relationship subs "SIMS" None in
    let* sims_pop := deref w_pops sims in
    let* _ := rel_add sims_of_subs (map fst mapping) (p_ids sims_pop) in
    let* msisdn_seed := next_of_seeder in
    let* msisdn_gen := alloc_gen (new_msisdn "0032" msisdn_prefixes (digits params) (fun _ => random_state pg msisdn_seed)) in
    let* _ := create_attribute sims "MSISDN" None (Some msisdn_gen) None in
    let agents := map VStr (build_ids (n_agents params) 0 "AGENT_" 3) in
    let* graph_seed := next_of_seeder in
    let* agent_df := lift (make_random_bipartite_data (p_ids sims_pop) agents (3#10)
                             (nx_bipartite x graph_seed (length (p_ids sims_pop)) (length agents) (3#10))) in
    let* sims_agents_rel := create_relationship sims "POSSIBLE_AGENTS" None in
    let* weight_seed := next_of_seeder in
    let* agent_weight_gen := alloc_gen (GNumpy (NpOther (exponential x)) (random_state pg weight_seed) None) in
    let* weights := generate agent_weight_gen (Z.of_nat (length agent_df)) in
    let* _ := rel_add_weighted sims_agents_rel (map fst agent_df) (map snd agent_df) weights in
    ret (subs, sims, recharge_gen).

(** ** test_cdr.py:218-302 add_mobility *)

(** 227-238 *)
Definition mobility_profile : timer_profile :=
  mkProfile [1; 1; 1; 1; 1; 1; 1; 1; 5; 10; 5; 1; 1; 1; 1; 1; 1; 5; 10; 5; 1; 1; 1; 1]%Q hour (1473638400 * second).

(** The default parameters of a story: activity 1 (story.py:12), probability 1 to go back to the default state (55). *)
Definition default_activity : M nat := alloc_gen (GConst (vz 1)).
Definition default_back : M nat := alloc_gen (GConst (vz 1)).

(** The story only uses the four names it is given. *)
Definition add_mobility (x : cdr_sources) (subs cells : nat) : M unit :=
  let* pg := get w_prng in
  let* mobility_time_gen := alloc_cyclic mobility_profile in
  let* weight_seed := next_of_seeder in
  let* mobility_weight_gen := alloc_gen (GNumpy (NpOther (exponential x)) (random_state pg weight_seed) None) in
  let* mobility_rel := create_relationship subs "POSSIBLE_CELLS" None in
  let* graph_seed := next_of_seeder in
  let* subs_pop := deref w_pops subs in
  let* cells_pop := deref w_pops cells in
  let* mobility_df := lift (make_random_bipartite_data (p_ids subs_pop) (p_ids cells_pop) (4#10)
                              (nx_bipartite x graph_seed (length (p_ids subs_pop)) (length (p_ids cells_pop)) (4#10))) in
  let* weights := generate mobility_weight_gen (Z.of_nat (length mobility_df)) in
  let* _ := rel_add_weighted mobility_rel (map fst mobility_df) (map snd mobility_df) weights in
  let* cell := create_attribute subs "CELL" None None (Some "POSSIBLE_CELLS"%string) in
  let* activity := default_activity in
  let* back := default_back in
  let* mobility := create_story (states_order x) "mobility" subs "A_ID" (activity, back) None mobility_time_gen true in
  set_operations mobility
    (cdr_mobility (mkCdr subs 0 0 0 0 mobility_rel 0 cell 0 0 0 0 0 0 0 0 0 0 0 0 0 0 (fun l => l) (time_format (of_geography x)))).

(** ** test_cdr.py:304-350 add_topups *)
Definition alloc_tgen (t : tgen) : M nat :=
  let* tgens := get w_tgens in
  let* _ := modify (set_tgens (tgens ++ [t])) in
  ret (length tgens).
Definition alloc_dgen (d : dgen) : M nat :=
  let* dgens := get w_dgens in
  let* _ := modify (set_dgens (dgens ++ [d])) in
  ret (length dgens).

(** The default timer generator, ConstantDependentGenerator(value=-1), has no state: it is created here. *)
Definition add_topups (x : cdr_sources) (sims recharge_gen : nat) : M unit :=
  let* activity := default_activity in
  let* back := default_back in
  let* never := alloc_tgen (TConst (-1)) in
  let* topups := create_story (states_order x) "topups" sims "SIM_ID" (activity, back) None never true in
  let* possible_agents := get_relationship sims "POSSIBLE_AGENTS" in
  let* main_acct := get_attribute sims "MAIN_ACCT" in
  set_operations topups
    (cdr_topups (mkCdr 0 sims 0 0 0 0 possible_agents 0 0 0 0 main_acct 0 recharge_gen 0 0 0 0 0 0 0 0 (fun l => l) (time_format (of_geography x)))).

(** ** test_cdr.py:352-593 add_communications.  [health] is the attribute HEALTH of the cells: the story looks it up
    by name, [k_health] is only used in statements. *)
Definition recharge_mapper (x : cdr_sources) (v : val) : result Q :=
  match v with VNum q => Ok (recharge_probability x q) | _ => Err TypeError end.
Definition add_communications (x : cdr_sources) (subs sims cells recharge_gen : nat) : M cdr :=
  let* pg := get w_prng in
  let* s1 := next_of_seeder in
  let* voice_duration := alloc_gen (GNumpy (NpChoice (map (fun k => vz (20 + Z.of_nat k)) (seq 0 220)) None) (random_state pg s1) None) in
  let* call_timegen := alloc_cyclic high_week_days_profile in
  let* s3 := next_of_seeder in
  let* recharge_trigger := alloc_dgen (DTrigger (recharge_mapper x) (random_state pg s3)) in
  let* s4 := next_of_seeder in
  let* normal_activity := alloc_gen (GPareto (Q2Qc 10) false (lomax_1_2 (of_geography x)) (random_state pg s4)) in
  let* s5 := next_of_seeder in
  let* excited_activity := alloc_gen (GPareto (Q2Qc 100) false (lomax_1_1 x) (random_state pg s5)) in
  let* s6 := next_of_seeder in
  let* excitability_gen := alloc_gen (GNumpy (NpOther (beta_7_3 x)) (random_state pg s6) None) in
  let* excitability := create_attribute subs "EXCITABILITY" None (Some excitability_gen) None in
  let* s7 := next_of_seeder in
  let* flat_trigger := alloc_dgen (DTrigger as_Q (random_state pg s7)) in
  let* s8 := next_of_seeder in
  let* back_to_normal := alloc_gen (GNumpy (NpOther (beta_3_7 x)) (random_state pg s8) None) in
  let* back1 := default_back in
  let* calls := create_story (states_order x) "calls" subs "A_ID" (normal_activity, back1)
                  (Some [("excited"%string, (excited_activity, back_to_normal))]) call_timegen true in
  let* back2 := default_back in
  let* sms := create_story (states_order x) "sms" subs "A_ID" (normal_activity, back2)
                (Some [("excited"%string, (excited_activity, back_to_normal))]) call_timegen true in
  let* friends := get_relationship subs "FRIENDS" in
  let* sims_of := get_relationship subs "SIMS" in
  let* main_acct := get_attribute sims "MAIN_ACCT" in
  let* stories := get w_stories in
  match find_story "topups" stories 0 with
  | None => raise AttributeError
  | Some topups =>
      let* voice := alloc_gen (GConst (VStr "VOICE")) in
      let* text := alloc_gen (GConst (VStr "SMS")) in
      let* cell := get_attribute subs "CELL" in
      let* operator := get_attribute sims "OPERATOR" in
      let* msisdn := get_attribute sims "MSISDN" in
      let* health := get_attribute cells "HEALTH" in
      let* possible_cells := get_relationship subs "POSSIBLE_CELLS" in
      let* agents := get_relationship sims "POSSIBLE_AGENTS" in
      let c := mkCdr subs sims cells friends sims_of possible_cells agents cell excitability operator msisdn main_acct health
                 recharge_gen voice text voice_duration flat_trigger recharge_trigger topups calls sms (set_order x)
                 (time_format (of_geography x)) in
      let* _ := set_operations calls (cdr_calls c) in
      let* _ := set_operations sms (cdr_sms c) in
      ret c
  end.

(** ** test_cdr.py:111-128 __init__, after Circus.__init__ *)
Definition build_cdr (x : cdr_sources) (params : cdr_params) : M cdr :=
  let* (subs, sims, recharge_gen) := create_subs_and_sims x params in
  let* (cells, _) := add_uganda_geography (of_geography x) true in
  let* _ := add_mobility x subs cells in
  let* _ := add_er_social_network (lomax_1_2 (of_geography x)) (skips x) subs "FRIENDS" (average_degree params) in
  let* _ := add_topups x sims recharge_gen in
  add_communications x subs sims cells recharge_gen.
