(** Specification vocabulary for populations that keep what a log tells. *)
From Verif Require Import Base Rng Relationship SpecRelationship Frame Gens Clock Attribute SpecAttribute World Story Ops Circus SpecStory SpecOps SpecCircus
  SpecPopulation SpecLocal SpecSupply Fs SpecFs SpecLedger SpecRecords.

(** Different names, different attributes. *)
Definition own_attributes (w : world) (p : nat) : Prop :=
  forall n m x, attribute_at w p n x -> attribute_at w p m x -> n = m.

(** The operation that makes each [who b] a member of the population [p], and [what b] their attribute [name]. *)
Inductive saves (p : nat) (name : string) (b : book) : op -> list string -> book -> Prop :=
| a_saving copy : dget name copy = Some (what b) -> saves p name b (OpPopUpdate p (who b) copy) [] b.

(** The stories change the members of the population [p], and their attribute [name], only by such operations, and
    log each of them in [b]. *)
Definition archive_of (w : world) (p : nat) (name : string) (x : nat) (b : book) : Prop :=
  attribute_at w p name x /\ single_valued w x /\ own_attributes w p /\
  forall i s o, nth_error (w_stories w) i = Some s -> In o [OPopulation p; OAttribute x] -> keeps_books w o [b] (saves p name b) s.
