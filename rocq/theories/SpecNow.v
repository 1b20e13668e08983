(** Specification vocabulary for what a record tells at the moment it is logged. *)
From Verif Require Import Base Rng Utils Relationship SpecRelationship Frame Gens Clock SpecClock Attribute World Story Ops Helpers Circus SpecStory SpecOps SpecCircus
  SpecPopulation SpecLocal SpecSupply Fs SpecFs SpecLedger SpecRecords.

(** No operation of [ops], even within a chain, adds or pops items of the relationship [r]. *)
Definition untouched_relationship (ops : list op) (r : nat) : Prop := forall o o', In o ops -> part_of o' o -> ~ moves_items r o'.
(** No operation of [ops] changes the attribute [x]. *)
Definition untouched_attribute (w : world) (ops : list op) (x : nat) : Prop := forall o, In o ops -> ~ changes w o (OAttribute x).

(** What [o] tells, having been run after the operations [before] in an execution that started in [w]. *)
Definition tells_now (w : world) (before : list op) (o : op) (row : record) : Prop :=
  tells_given (untouched_relationship before) (untouched_attribute w before) w (c_date (w_clock w)) o row.

(** The record was logged under [id] by an execution of the story [a] that started in [w]: it shows columns of
    a row of the story, of which all that the operations before the logger tell was true in [w]. *)
Definition told_now (w : world) (id : string) (a : nat) (r : record) : Prop :=
  exists s before names ex afterwards row k,
    nth_error (w_stories w) a = Some s /\ st_ops s = before ++ OpFieldLogger id names ex :: afterwards /\
    (forall c, names = [] \/ In c names -> r c = if mem c ex then nth k (list_of (row c)) VNA else row c) /\
    (forall c, In c ex -> k < length (list_of (row c))) /\
    (forall earlier o later, before = earlier ++ o :: later -> tells_now w earlier o row) /\
    In (row (st_field s)) (due_members s).

(** The record was logged during the history [hs], right after [past], by a story executed in the circus as
    it was then. *)
Definition logged_then (w : world) (id : string) (hs past : list happening) (r : record) : Prop :=
  exists a future L1 w1, hs = past ++ HExec a :: future /\ emits w past L1 w1 /\ told_now w1 id a r.
