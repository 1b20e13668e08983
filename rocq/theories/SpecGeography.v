(** Specification vocabulary for the sample geography. *)
From Verif Require Import Base Relationship SpecRelationship Frame Gens Clock Attribute World Story SpecStory SpecWorld SpecPopulation Circus Geography.

(** Population [p] has an attribute [name] with exactly one value for each member and no
    other, and the values satisfy [law]. *)
Definition full_attribute (w : world) (p : nat) (name : string) (law : val -> Prop) : Prop :=
  exists a, attribute_at w p name a /\ single_valued w a /\
    (forall i, member w p i <-> exists v, holds w a i v) /\ forall i v, holds w a i v -> law v.

(** The members of population [p], each once. *)
Definition members_are (w : world) (p : nat) (ids : list val) : Prop :=
  NoDup ids /\ forall i, member w p i <-> In i ids.

(** The objects of [w] are unchanged in [w'], which has others. *)
Definition extends (w w' : world) : Prop :=
  (exists l, w_attrs w' = w_attrs w ++ l) /\ (exists l, w_rels w' = w_rels w ++ l) /\ (exists l, w_gens w' = w_gens w ++ l) /\
  (exists l, w_tgens w' = w_tgens w ++ l) /\ (exists l, w_pops w' = w_pops w ++ l) /\ (exists l, w_stories w' = w_stories w ++ l) /\
  w_dgens w' = w_dgens w /\ w_gen_names w' = w_gen_names w /\
  c_date (w_clock w') = c_date (w_clock w) /\ c_step (w_clock w') = c_step (w_clock w) /\
  forall n, n <> "cells"%string -> n <> "cities"%string -> dget n (w_pop_names w') = dget n (w_pop_names w).

Definition story_named (w : world) (name : string) (a : nat) : Prop :=
  exists s, nth_error (w_stories w) a = Some s /\ st_name s = name.

(** Story [a] is rescheduled by story [b] at most: no operation of another story
    reschedules it, and the user does not. *)
Definition rescheduled_only_by (b : nat) (w : world) (a : nat) (l : list happening) : Prop :=
  (forall c s o, c <> b -> nth_error (w_stories w) c = Some s -> In o (st_ops s) -> reschedules a o = false) /\
  (forall h, In h l -> match h with
                       | HForce c _ | HReset c _ | HTick c _ => c <> a
                       | _ => True
                       end).

(** numpy's pareto samples are not negative. *)
Definition positive_laws (src : sources) : Prop := forall x, (0 <= lomax_1_4 src x)%Q /\ (0 <= lomax_1_2 src x)%Q.

(** A cyclic timer with this profile can be created at the clock's date. *)
Definition can_start (p : timer_profile) (c : clock) : Prop := exists st y, new_cyclic p (c_date c) (c_step c) st = Ok y.

(** The names the geography uses are free and its timer can be created. *)
Definition geography_free (w : world) : Prop :=
  dmem "cells"%string (w_pop_names w) = false /\ dmem "cities"%string (w_pop_names w) = false /\
  can_start uganda_profile (w_clock w) /\
  ~ In "cell_break_down"%string (map st_name (w_stories w)) /\ ~ In "cell_repair_down"%string (map st_name (w_stories w)).

(** [n] clock steps last 24 hours. *)
Definition day_of_steps (w : world) (n : nat) : Prop := (Z.of_nat n * c_step (w_clock w) = 24 * hour)%Z.

(** A line of the log: a time within the current step, the cell, a level drawn from beta(1, 999). *)
Definition status_line (src : sources) (w : world) (row : val * list val) : Prop :=
  exists t x, snd row = [time_format src t; fst row; VNum (beta_1_999 src x)] /\
    (c_date (w_clock w) <= t < c_date (w_clock w) + c_step (w_clock w))%Z.
