(** Specification vocabulary: subscribers and SIM cards of the scenario of tests/scenarios/test_cdr.py. *)
From Verif Require Import Base Rng Utils Relationship SpecRelationship Frame Gens GensProps Clock Attribute World Story Ops Circus SpecPopulation SpecLedger SpecRecords Geography CdrSetup.
From Coq Require Import Permutation.
Local Open Scope nat_scope.

(** The population [name] of the circus is [p], its members are [members]. *)
Definition has_population (w : world) (name : string) (p : nat) (members : list val) : Prop :=
  dget name (w_pop_names w) = Some p /\ NoDup members /\ exists po, nth_error (w_pops w) p = Some po /\ p_ids po = members.
(** [v] is the value of [k], and there is no other. *)
Definition only_holds (w : world) (a : nat) (k v : val) : Prop := forall v', holds w a k v' <-> v' = v.

(** The numbers of SIM cards. *)
Definition is_msisdn (n_digits : nat) (v : val) : Prop :=
  exists prefix tail, v = VStr ("0032" ++ prefix ++ tail) /\ In prefix ["472"; "473"; "475"; "476"; "477"; "478"; "479"]%string /\
    String.length tail = n_digits /\ digits_only tail.

Record telephony (w : world) (params : cdr_params) (subs sims owned agents operator account number : nat) (subscribers simcards : list val) : Prop := {
  tel_subs : has_population w "subs" subs subscribers /\ Z.of_nat (length subscribers) = n_subscribers params;
  tel_sims : has_population w "sims" sims simcards;
  tel_names : relationship_at w subs "SIMS" owned /\ relationship_at w sims "POSSIBLE_AGENTS" agents /\ attribute_at w sims "OPERATOR" operator /\
    attribute_at w sims "MAIN_ACCT" account /\ attribute_at w sims "MSISDN" number;
  (* every SIM card belongs to one subscriber, once; subscribers own nothing else *)
  tel_owner : forall sim, In sim simcards -> exists i, In i subscribers /\ forall j, In sim (items w owned j) <-> j = i;
  tel_owned : forall i sim, In sim (items w owned i) -> In sim simcards;
  (* one to four, of different operators *)
  tel_few : forall i, In i subscribers -> 1 <= length (items w owned i) <= 4 /\ NoDup (items w owned i);
  tel_operator : forall sim, In sim simcards ->
    exists o, In o [VStr "OPERATOR_0"; VStr "OPERATOR_1"; VStr "OPERATOR_2"; VStr "OPERATOR_3"] /\ only_holds w operator sim o;
  tel_different : forall i a b o, In a (items w owned i) -> In b (items w owned i) -> holds w operator a o -> holds w operator b o -> a = b;
  tel_account : forall sim, In sim simcards -> only_holds w account sim (vz 1000);
  (* no two cards have the same number *)
  tel_number : forall sim, In sim simcards -> exists v, is_msisdn (digits params) v /\ only_holds w number sim v;
  tel_numbers : forall a b v, holds w number a v -> holds w number b v -> a = b;
  (* agents are agents *)
  tel_agents : forall sim a, In a (items w agents sim) ->
    In sim simcards /\ exists k, (0 <= k < n_agents params)%Z /\ a = VStr ("AGENT_" ++ zfill 3 (str_of_Z k))
}.

(** What networkx's random graph must be for the scenario: some edge, from the [a] nodes of the first
    group to the [b] nodes of the second. *)
Definition sound_graph (edges : list (nat * nat)) (a b : nat) : Prop :=
  edges <> [] /\ Forall (fun e => fst e < a /\ a <= snd e < a + b) edges.

(** What is assumed of the random numbers (weights of relations are positive) and of the orders of sets. *)
Definition sane_sources (x : cdr_sources) : Prop :=
  (forall n, 0 < exponential x n)%Qc /\ (forall n, 0 <= lomax_1_2 (of_geography x) n)%Qc /\
  (forall l, Permutation (states_order x l) l) /\ (forall l, Permutation (set_order x l) l).

(** Every subscriber has an edge in the graphs of possible cells. *)
Definition nobody_alone (x : cdr_sources) (params : cdr_params) : Prop :=
  forall s i, i < Z.to_nat (n_subscribers params) -> In i (map fst (nx_bipartite x s (Z.to_nat (n_subscribers params)) (Z.to_nat n_cells) (4#10))).
