(** Specification vocabulary for the scenario of tests/scenarios/test_snd.py. *)
From Verif Require Import Base Rng Utils Relationship SpecRelationship Frame Gens Clock SpecClock Attribute SpecAttribute World Story Ops Helpers Circus SpecStory SpecOps
  SpecCircus SpecPopulation SpecLocal SpecSupply Fs SpecFs SpecLedger SpecRecords SpecSafe Geography Cdr SpecCdr SpecCdrLogs Snd.

(** Story number [a] has these members, this name of their column, and these operations (to which set_operations
    adds one). *)
Definition is_story (w : world) (a : nat) (field : string) (members : list val) (ops : list op) : Prop := exists s, cdr_story w a s field members ops.

(** A circus with the six stories of the scenario (in the order in which it creates them). *)
Record snd_circus (w : world) (c : snd_names) (distributors dealers agents : list val) : Prop := {
  snd_six : length (w_stories w) = 6;
  snd_story_restock : is_story w restock "DISTRIBUTOR_ID" distributors (snd_restock c);
  snd_story_purchases : is_story w purchases "AGENT" agents (snd_purchases c);
  snd_story_bulk : is_story w bulk_purchases "DEALER_ID" dealers (snd_bulk_purchases c);
  snd_story_start : is_story w start_holidays "AGENT" agents (snd_start_holidays c);
  snd_story_stops : is_story w stops_holidays "AGENT" agents (snd_stops_holidays c);
  snd_story_reviews : is_story w reviews "AGENT" agents (snd_reviews c);
  snd_attributes : has_attribute w (n_distros c) "SIMS_TO_RESTOCK" (n_to_restock c) /\ has_attribute w (n_dealers c) "BULK_BUY_SIZE" (n_bulk_size c) /\
    has_attribute w (n_agents c) "AGENT_NAME" (n_agent_name c) /\
    forall x, In x [n_to_restock c; n_bulk_size c; n_agent_name c] -> x < length (w_attrs w);
  snd_stocks : NoDup [n_distro_sims c; n_dealer_sims c; n_agent_sims c; n_dealers_of c; n_distro_of c];
  (* the stocks exist; no SIM is missing (NaN), and none is generated *)
  snd_reachable : Forall reachable (w_rels w) /\ forall r, In r [n_distro_sims c; n_dealer_sims c; n_agent_sims c] -> related_to w r;
  snd_sims : (forall r, In r [n_distro_sims c; n_dealer_sims c] -> ~ In VNA (map snd (pairs_of w r))) /\
    never_refuses (w_gens w) (n_sim_ids c) /\ ~ can_give (w_gens w) (n_sim_ids c) VNA
}.

(** ** Counting records *)
Definition of_whom (column : string) (k : val) (rs : list record) : list record := filter (fun r : record => val_eqb (r column) k) rs.
Definition successful (rs : list record) : list record := filter (fun r : record => negb (val_eqb (r "FAILED_SALE"%string) (VBool true))) rs.
Definition sum_shown (column : string) (rs : list record) : Qc := total (map (fun r : record => r column) rs).
Definition qnat (n : nat) : Qc := Q2Qc (inject_Z (Z.of_nat n)).

(** That is what a lookup of the attribute of that member shows. *)
Definition shown_by (w : world) (x : nat) (i v : val) : Prop := exists t, nth_error (w_attrs w) x = Some t /\ looked_up t i v.
(** A moment of the current step of the clock. *)
Definition at_the_time (w : world) (c : snd_names) (v : val) : Prop :=
  exists t, v = n_fmt c t /\ (c_date (w_clock w) <= t < c_date (w_clock w) + Clock.c_step (w_clock w))%Z.

(** The record tells of an attempt of an agent, due in the circus [w], to buy a SIM from one of their dealers; it
    succeeds if that dealer has SIMs. *)
Definition a_purchase (w : world) (c : snd_names) (r : record) : Prop :=
  acts_now w purchases (r "AGENT"%string) /\
  (In (r "DEALER"%string) (items w (n_dealers_of c) (r "AGENT"%string)) \/ items w (n_dealers_of c) (r "AGENT"%string) = [] /\ r "DEALER"%string = VNA) /\
  (In (r "SOLD_SIM"%string) (items w (n_dealer_sims c) (r "DEALER"%string)) /\ r "FAILED_SALE"%string = VBool false \/
   items w (n_dealer_sims c) (r "DEALER"%string) = [] /\ r "SOLD_SIM"%string = VNA /\ r "FAILED_SALE"%string = VBool true) /\
  at_the_time w c (r "DATETIME"%string).


(** The record tells of a dealer, due in [w], who takes from their distributor as many SIMs as they want, or
    fewer. *)
Definition a_bulk_purchase (w : world) (c : snd_names) (r : record) : Prop :=
  acts_now w bulk_purchases (r "DEALER_ID"%string) /\
  (In (r "DISTRIBUTOR"%string) (items w (n_distro_of c) (r "DEALER_ID"%string)) \/ items w (n_distro_of c) (r "DEALER_ID"%string) = [] /\ r "DISTRIBUTOR"%string = VNA) /\
  exists wanted got, shown_by w (n_bulk_size c) (r "DEALER_ID"%string) (vnat wanted) /\ r "NUMBER_OF_SIMS"%string = vnat got /\
    got <= wanted /\ got <= length (items w (n_distro_sims c) (r "DISTRIBUTOR"%string)).
(** ... of a distributor, due in [w], who restocks as many SIMs as is written down. *)
Definition a_restock (w : world) (c : snd_names) (r : record) : Prop :=
  acts_now w restock (r "DISTRIBUTOR_ID"%string) /\ shown_by w (n_to_restock c) (r "DISTRIBUTOR_ID"%string) (r "SIMS_TO_RESTOCK"%string) /\
  at_the_time w c (r "DATETIME"%string).
(** ... of an agent who goes on holidays or returns. *)
Definition a_holiday (w : world) (c : snd_names) (r : record) : Prop :=
  (acts_now w start_holidays (r "AGENT"%string) /\ can_give (w_gens w) (n_going c) (r "STATES"%string) \/
   acts_now w stops_holidays (r "AGENT"%string) /\ can_give (w_gens w) (n_returning c) (r "STATES"%string)) /\
  at_the_time w c (r "TIME"%string).
(** ... of a review, signed by its author. *)
Definition a_review (w : world) (c : snd_names) (r : record) : Prop :=
  acts_now w reviews (r "AGENT"%string) /\ shown_by w (n_agent_name c) (r "AGENT"%string) (r "AGENT_NAME"%string) /\
  can_give (w_gens w) (n_review_ids c) (r "REVIEW_ID"%string) /\ can_give (w_gens w) (n_texts c) (r "REVIEW_TEXT"%string) /\
  at_the_time w c (r "DATETIME"%string).
Definition snd_logs : list (string * (world -> snd_names -> record -> Prop)) :=
  [("purchases", a_purchase); ("bulk_purchases", a_bulk_purchase); ("distributor_restock", a_restock); ("holidays", a_holiday); ("reviews", a_review)]%string.

(** The record was logged during the history [hs], right after [past], and what it tells was true then. *)
Definition was_true (tells : world -> snd_names -> record -> Prop) (w : world) (c : snd_names) (hs past : list happening) (r : record) : Prop :=
  exists a future L1 w1, hs = past ++ HExec a :: future /\ emits w past L1 w1 /\ tells w1 c r.
