(** Specification vocabulary for the moves of the subscribers and the health of the cells of
    tests/scenarios/test_cdr.py. *)
From Verif Require Import Base Rng Utils Relationship SpecRelationship Frame Gens Clock SpecClock Attribute SpecAttribute World Story Ops Helpers Circus SpecStory SpecOps
  SpecCircus SpecPopulation SpecLocal SpecSupply Fs SpecFs SpecLedger SpecRecords SpecNow SpecJournal SpecSafe Geography Cdr SpecCdr SpecCdrLogs.

(** The record tells of a subscriber, due in the circus [w], who leaves the cell where they are for one of those
    possible for them. *)
Definition a_move (w : world) (c : cdr) (r : record) : Prop :=
  acts_now w 2 (r "A_ID"%string) /\ (single (r "A_ID"%string) -> holds w (k_cell c) (r "A_ID"%string) (r "PREV_CELL"%string)) /\
  (In (r "NEW_CELL"%string) (items w (k_possible_cells c) (r "A_ID"%string)) \/ items w (k_possible_cells c) (r "A_ID"%string) = [] /\ r "NEW_CELL"%string = VNA) /\
  at_that_time w c (r "TIME"%string).
(** ... of a cell, due in [w], which breaks down or is repaired. *)
Definition a_status (src : sources) (unhealthy healthy : nat) (w : world) (c : cdr) (r : record) : Prop :=
  (acts_now w 0 (r "CELL_ID"%string) /\ can_give (w_gens w) unhealthy (r "NEW_HEALTH_LEVEL"%string) \/
   acts_now w 1 (r "CELL_ID"%string) /\ can_give (w_gens w) healthy (r "NEW_HEALTH_LEVEL"%string)) /\
  exists t, r "TIME"%string = time_format src t /\ (c_date (w_clock w) <= t < c_date (w_clock w) + Clock.c_step (w_clock w))%Z.

(** The last of the records about [k] shows [v]. *)
Definition last_shows (whose what : string) (k v : val) (rs : list record) : Prop :=
  exists before (r : record) afterwards, rs = before ++ r :: afterwards /\ r whose = k /\ r what = v /\ forall r' : record, In r' afterwards -> r' whose <> k.
Definition nothing_about (whose : string) (k : val) (rs : list record) : Prop := forall r : record, In r rs -> r whose <> k.
