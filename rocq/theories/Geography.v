(** Model of /repo/trumania/components/geographies: uganda.py and random_geo.py. *)
From Verif Require Import Base BaseFacts Rng Utils Relationship Frame Gens Clock Attribute World Story Ops Circus.

(** What the libraries outside the project provide: the texts and numbers given by
    Faker at its successive calls, and the maps from a raw draw to a value of
    numpy's beta(1, 999), pareto(1.4) and pareto(1.2); the format of timestamps. *)
Record sources := mkSources {
  latitudes : nat -> val;
  longitudes : nat -> val;
  city_names : nat -> val;
  beta_1_999 : N -> Qc;
  lomax_1_4 : N -> Qc;
  lomax_1_2 : N -> Qc;
  time_format : Z -> val
}.

(** A Python call naming the arguments [given]: a required one that is missing is a TypeError. *)
Definition bind_arguments (required given : list string) : result unit :=
  if forallb (fun a => mem a given) required then Ok tt else Err TypeError.

(** A generator object is created. *)
Definition alloc_gen (g : gen) : M nat :=
  let* gens := get w_gens in
  let* _ := modify (set_gens (gens ++ [g])) in
  ret (length gens).

(** clock.py:138-187: a cyclic timer is created and registered with the clock. *)
Definition alloc_cyclic (config : timer_profile) : M nat :=
  let* seed := next_of_seeder in
  let* g := get w_prng in
  let* c := get w_clock in
  let* y := lift (new_cyclic config (c_date c) (c_step c) (random_state g seed)) in
  let* tgens := get w_tgens in
  let* _ := modify (set_tgens (tgens ++ [TCyclic y])) in
  let* _ := modify (fun w => set_clock (register_listener (w_clock w) (length tgens)) w) in
  ret (length tgens).

(** uganda.py:17-18 and 21-22: the same law *)
Definition unhealthy_level_gen (src : sources) (pg : prng) (seed : N) : gen :=
  GNumpy (NpOther (beta_1_999 src)) (random_state pg seed) None.
Definition healthy_level_gen (src : sources) (pg : prng) (seed : N) : gen :=
  GNumpy (NpOther (beta_1_999 src)) (random_state pg seed) None.

(** uganda.py:160-166 *)
Definition uganda_profile : timer_profile :=
  mkProfile [1; 5#10; 2#10; 15#100; 2#10; 4#10; 38#10; 72#10; 84#10; 91#10; 90#10; 83#10; 81#10;
             77#10; 74#10; 78#10; 80#10; 79#10; 97#10; 104#10; 105#10; 88#10; 57#10; 28#10]%Q
            hour monday.

Definition n_cells : Z := 200.
Definition n_names : Z := 500.

(** uganda.py:121-168 build_uganda_populations.  The two seeds given to Faker have no
    effect on [sources]. *)
Definition build_uganda_populations (src : sources) : M (nat * nat * timer_profile) :=
  let* pg := get w_prng in
  let seeder0 := random_state pg 12345 in
  let* cell_ids := alloc_gen (GSeq 0 "CELL_" 10) in
  let* cells := create_population "cells" (Some cell_ids) (Some n_cells) None in
  let (_, seeder1) := next_seed seeder0 in
  let* lat := alloc_gen (GOracle (latitudes src) 0) in
  let* _ := create_attribute cells "latitude" None (Some lat) None in
  let (_, seeder2) := next_seed seeder1 in
  let* lon := alloc_gen (GOracle (longitudes src) 0) in
  let* _ := create_attribute cells "longitude" None (Some lon) None in
  let (health_seed, seeder3) := next_seed seeder2 in
  let* healthy := alloc_gen (healthy_level_gen src pg health_seed) in
  let* _ := create_attribute cells "HEALTH" None (Some healthy) None in
  let (_, seeder4) := next_seed seeder3 in
  let* city_gen := alloc_gen (GOracle (city_names src) 0) in
  let* names := generate city_gen n_names in
  let* cities := create_population "cities" None None (Some (firstn (Z.to_nat n_cells) (uniq names))) in
  let* cell_city_rel := create_relationship cities "CELLS" None in
  let* cells_pop := deref w_pops cells in
  let* cities_pop := deref w_pops cities in
  let (assign_seed, seeder5) := next_seed seeder4 in
  let* (assigned, _) := lift (make_random_assign (p_ids cells_pop) (p_ids cities_pop) (random_state pg assign_seed)) in
  let* _ := rel_add cell_city_rel (map snd assigned) (map fst assigned) in
  let (pop_seed, _) := next_seed seeder5 in
  let* pop_gen := alloc_gen (GPareto (Q2Qc 10000) false (lomax_1_4 src) (random_state pg pop_seed)) in
  let* _ := create_attribute cities "population" None (Some pop_gen) None in
  ret (cells, cities, uganda_profile).

(** uganda.py:36-45: the two populations and the timer profile.  The call
    db.load_population(namespace=..., population_id=...) lacks the parameter circus
    of components/db.py:28. *)
Definition uganda_populations (src : sources) (force_build : bool) : M (nat * nat * timer_profile) :=
  if force_build then build_uganda_populations src
  else
    let* _ := lift (bind_arguments ["namespace"; "population_id"; "circus"]%string ["namespace"; "population_id"]%string) in
    raise Unmodelled.

(** The operations of the two stories, uganda.py:90-117. *)
Definition status_cols : list string := ["TIME"; "CELL_ID"; "NEW_HEALTH_LEVEL"]%string.
Definition break_down_ops (src : sources) (unhealthy health repair : nat) : list op :=
  [OpGenerate unhealthy "NEW_HEALTH_LEVEL" None;
   OpAttrUpdate health "CELL_ID" "NEW_HEALTH_LEVEL";
   OpReset repair (Some "CELL_ID"%string);
   OpTimestamp "TIME" true (time_format src);
   field_logger "cell_status" (Some status_cols) []].
Definition repair_ops (src : sources) (healthy health : nat) : list op :=
  [OpGenerate healthy "NEW_HEALTH_LEVEL" None;
   OpAttrUpdate health "CELL_ID" "NEW_HEALTH_LEVEL";
   OpTimestamp "TIME" true (time_format src);
   field_logger "cell_status" (Some status_cols) []].

(** A story with the generator [activity] and the default probability 1 to go back to the
    default state (story.py:12-16, 53-56); it has no other state. *)
Definition plain_story (name : string) (cells : nat) (activity_gen : gen) (timer : nat) (auto : bool) : M nat :=
  let* activity := alloc_gen activity_gen in
  let* back := alloc_gen (GConst (vz 1)) in
  create_story (fun l => l) name cells "CELL_ID" (activity, back) None timer auto.

(** uganda.py:27-119 add_uganda_geography *)
Definition add_uganda_geography (src : sources) (force_build : bool) : M (nat * nat) :=
  let* pg := get w_prng in
  let seeder0 := random_state pg 12345 in
  let* (cells, cities, timer_config) := uganda_populations src force_build in
  let* timer := alloc_cyclic timer_config in
  let (seed1, seeder1) := next_seed seeder0 in
  let* unhealthy := alloc_gen (unhealthy_level_gen src pg seed1) in
  let (seed2, _) := next_seed seeder1 in
  let* healthy := alloc_gen (healthy_level_gen src pg seed2) in
  let* break_seed := next_of_seeder in
  let* break_down := plain_story "cell_break_down" cells
                       (GPareto (Q2Qc 5) false (lomax_1_4 src) (random_state pg break_seed)) timer true in
  let* repair_seed := next_of_seeder in
  let* repair := plain_story "cell_repair_down" cells
                   (GPareto (Q2Qc 100) false (lomax_1_2 src) (random_state pg repair_seed)) timer false in
  let* health := get_attribute cells "HEALTH" in
  let* _ := set_operations break_down (break_down_ops src unhealthy health repair) in
  let* health' := get_attribute cells "HEALTH" in
  let* _ := set_operations repair (repair_ops src healthy health') in
  ret (cells, cities).

(** uganda.py:186, the script that stores the geography: build_uganda_populations() without
    its parameter. *)
Definition store_uganda : M unit :=
  let* _ := lift (bind_arguments ["circus"]%string []) in
  raise Unmodelled.

(** random_geo.py:11-24 create_random_cells: Population(size=n_cells) without its parameter circus. *)
Definition create_random_cells (n : Z) : M nat :=
  let* _ := lift (bind_arguments ["circus"]%string ["size"]%string) in
  raise Unmodelled.
