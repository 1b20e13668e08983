(** Specification vocabulary for logs whose records are numbered by a sequential generator. *)
From Verif Require Import Base Rng Utils Relationship SpecRelationship Frame Gens Clock Attribute SpecAttribute World Story Ops Circus SpecStory SpecOps SpecCircus
  SpecPopulation SpecLocal SpecSupply Fs SpecFs SpecLedger SpecRecords.

(** The operation that draws [who b] from the generator [g]. *)
Inductive numbers (g : nat) (b : book) : op -> list string -> book -> Prop :=
| a_numbering : numbers g b (OpGenerate g (who b) None) [who b] b.

(** The generator [g] has counted up to [start]; the stories only draw from it by such operations, and log each of
    the values in [b]. *)
Definition numbered_by (w : world) (g : nat) (b : book) (start : Z) (prefix : string) (width : nat) : Prop :=
  nth_error (w_gens w) g = Some (GSeq start prefix width) /\
  forall i s, nth_error (w_stories w) i = Some s -> keeps_books w (OGenerator g) [b] (numbers g b) s.

(** The [n] ids from [start] on. *)
Definition ids_from (start : Z) (prefix : string) (width : nat) (n : nat) : list val :=
  map (fun k => VStr (prefix ++ zfill width (str_of_Z (start + Z.of_nat k)))) (seq 0 n).
