(** Specification vocabulary for the scenario of tests/scenarios/test_cdr.py. *)
From Verif Require Import Base Rng Utils Relationship SpecRelationship Frame Gens Clock SpecClock Attribute SpecAttribute World Story Ops Helpers Circus SpecStory SpecOps
  SpecCircus SpecPopulation SpecLocal SpecSupply SpecLedger SpecRecords SpecSafe Geography Cdr.
From Coq Require Import Permutation.

(** The attribute [name] of population [p] is [x]. *)
Definition has_attribute (w : world) (p : nat) (name : string) (x : nat) : Prop :=
  exists po, nth_error (w_pops w) p = Some po /\ dget name (p_attrs po) = Some x.
(** [s] is the story number [a]: its members, the name of their column, and its operations, to which
    set_operations adds the last one. *)
Definition cdr_story (w : world) (a : nat) (s : story) (field : string) (members : list val) (ops : list op) : Prop :=
  nth_error (w_stories w) a = Some s /\ st_field s = field /\ st_ids s = members /\ exists judge, st_ops s = ops ++ [OpBack a judge].

(** A circus with the six stories of the scenario (in the order in which it creates them). *)
Record cdr_circus (w : world) (c : cdr) (src : sources) (unhealthy healthy : nat) (subscribers simcards antennas : list val) : Prop := {
  cdr_numbers : k_topups c = 3 /\ k_calls c = 4 /\ k_sms c = 5 /\ length (w_stories w) = 6;
  cdr_break_down : exists s, cdr_story w 0 s "CELL_ID" antennas (break_down_ops src unhealthy (k_health c) 1);
  cdr_repair : exists s, cdr_story w 1 s "CELL_ID" antennas (repair_ops src healthy (k_health c));
  cdr_moves : exists s, cdr_story w 2 s "A_ID" subscribers (cdr_mobility c);
  cdr_tops : exists s, cdr_story w 3 s "SIM_ID" simcards (cdr_topups c);
  cdr_talks : exists s, cdr_story w 4 s "A_ID" subscribers (cdr_calls c) /\ In "excited"%string (st_states s);
  cdr_texts : exists s, cdr_story w 5 s "A_ID" subscribers (cdr_sms c) /\ In "excited"%string (st_states s);
  cdr_attributes : has_attribute w (k_subs c) "CELL" (k_cell c) /\ has_attribute w (k_subs c) "EXCITABILITY" (k_excitability c) /\
    has_attribute w (k_sims_pop c) "OPERATOR" (k_operator c) /\ has_attribute w (k_sims_pop c) "MSISDN" (k_msisdn c) /\
    has_attribute w (k_sims_pop c) "MAIN_ACCT" (k_main_acct c) /\ has_attribute w (k_cells c) "HEALTH" (k_health c);
  cdr_distinct : NoDup [k_cell c; k_excitability c; k_operator c; k_msisdn c; k_main_acct c; k_health c]
}.

(** The attribute [x] holds one value of each of [ids], and only values allowed by [ok]. *)
Definition filled (w : world) (x : nat) (ids : list val) (ok : val -> val -> Prop) : Prop :=
  exists t, nth_error (w_attrs w) x = Some t /\ NoDup (map fst t) /\ incl ids (map fst t) /\ forall k v, In (k, v) t -> ok k v.
Definition a_number (v : val) : Prop := exists q, v = VNum q.
(** One can choose among the items of every member: no weight is negative, and whoever has several items has
    one of positive weight. *)
Definition choosable (w : world) (r : nat) : Prop :=
  exists rel, nth_error (w_rels w) r = Some rel /\ (forall f t q, In (f, t, q) (stored rel) -> (0 <= q)%Q) /\
    forall f, 2 <= length (tos_stored rel f) -> exists t q, In (f, t, q) (stored rel) /\ (0 < q)%Q.
(** A generator of numbers, a trigger that accepts numbers. *)
Definition gives_numbers (w : world) (g : nat) : Prop := never_refuses (w_gens w) g /\ forall v, can_give (w_gens w) g v -> a_number v.
Definition takes_numbers (w : world) (g : nat) : Prop :=
  exists proba b, nth_error (w_dgens w) g = Some (DTrigger proba b) /\ forall q, exists p, proba (VNum q) = Ok p.

(** What the scenario needs not to raise. *)
Record cdr_ready (w : world) (c : cdr) (unhealthy healthy : nat) (subscribers simcards antennas : list val) : Prop := {
  ready_cell : filled w (k_cell c) subscribers (fun k v => In v (items w (k_possible_cells c) k));
  ready_excitability : filled w (k_excitability c) subscribers (fun _ => a_number);
  ready_operator : filled w (k_operator c) simcards (fun _ _ => True);
  ready_msisdn : filled w (k_msisdn c) simcards (fun _ _ => True);
  ready_main_acct : filled w (k_main_acct c) simcards (fun _ => a_number);
  ready_health : filled w (k_health c) antennas (fun _ => a_number);
  (* every subscriber has a possible cell, and possible cells are cells *)
  ready_possible : forall i, In i subscribers -> items w (k_possible_cells c) i <> [];
  ready_cells : forall i, incl (items w (k_possible_cells c) i) antennas;
  (* SIM cards belong to one subscriber each *)
  ready_owners : forall i sim, In sim (items w (k_sims_of c) i) -> In i subscribers /\ In sim simcards;
  ready_owner : forall i j sim, In sim (items w (k_sims_of c) i) -> In sim (items w (k_sims_of c) j) -> i = j;
  ready_strings : exists rel, nth_error (w_rels w) (k_sims_of c) = Some rel /\ homogeneous rel;
  ready_ids : forall l, ~ In (VList l) (subscribers ++ simcards ++ antennas);
  ready_choices : choosable w (k_possible_cells c) /\ choosable w (k_friends c) /\ choosable w (k_agents c);
  ready_gens : gives_numbers w unhealthy /\ gives_numbers w healthy /\ gives_numbers w (k_recharge c) /\ gives_numbers w (k_duration c) /\
    never_refuses (w_gens w) (k_voice c) /\ never_refuses (w_gens w) (k_text c);
  ready_triggers : takes_numbers w (k_flat c) /\ takes_numbers w (k_recharge_trigger c);
  ready_judges : forall a s judge, nth_error (w_stories w) a = Some s -> In (OpBack a judge) (st_ops s) -> gives_numbers w judge;
  ready_order : forall l, Permutation (k_order c l) l;
  ready_stories : forall a s, nth_error (w_stories w) a = Some s -> scheduled w s;
  ready_rels : Forall reachable (w_rels w);
  ready_step : (second <= Clock.c_step (w_clock w))%Z
}.
