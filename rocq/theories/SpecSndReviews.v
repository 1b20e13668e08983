(** Specification vocabulary for the population of the reviews of tests/scenarios/test_snd.py. *)
From Verif Require Import Base Rng Utils Relationship SpecRelationship Frame Gens Clock SpecClock Attribute SpecAttribute World Story Ops Helpers Circus SpecStory SpecOps
  SpecCircus SpecPopulation SpecLocal SpecSupply SpecLedger SpecRecords SpecSafe SpecCdr Snd SpecSnd SpecCdrMoves SpecArchive.

(** The attributes of the reviews and the columns of the log they are copied from. *)
Definition review_columns : list (string * string) :=
  [("DATE", "DATETIME"); ("TEXT", "REVIEW_TEXT"); ("AGENT_ID", "AGENT"); ("AGENT_NAME", "AGENT_NAME")]%string.

(** The population of the reviews has these attributes, which are its own and hold one value per review. *)
Definition reviews_kept (w : world) (c : snd_names) : Prop :=
  own_attributes w (n_reviews c) /\
  forall name column, In (name, column) review_columns -> exists x, attribute_at w (n_reviews c) name x /\ single_valued w x /\ x <> n_to_restock c.

(** In [w'] the reviews are those of [w] and those recorded, and tell what their last record tells. *)
Definition reviews_told (w : world) (c : snd_names) (rs : list record) (w' : world) : Prop :=
  (forall i, member w' (n_reviews c) i <-> member w (n_reviews c) i \/ exists r : record, In r rs /\ r "REVIEW_ID"%string = i) /\
  forall name column x, In (name, column) review_columns -> attribute_at w (n_reviews c) name x ->
    forall k v, holds w' x k v <-> last_shows "REVIEW_ID" column k v rs \/ nothing_about "REVIEW_ID" k rs /\ holds w x k v.

(** No operation but that of the reviews story draws from the generator of their ids, which is sequential. *)
Definition ids_reserved (w : world) (c : snd_names) (start : Z) (prefix : string) (width : nat) : Prop :=
  nth_error (w_gens w) (n_review_ids c) = Some (GSeq start prefix width) /\
  forall a s o, nth_error (w_stories w) a = Some s -> In o (st_ops s) -> changes w o (OGenerator (n_review_ids c)) -> o = OpGenerate (n_review_ids c) "REVIEW_ID" None.
