(** Specification vocabulary for journals: logs that tell each value an attribute had. *)
From Verif Require Import Base Rng Relationship SpecRelationship Frame Gens Clock Attribute SpecAttribute World Story Ops Circus SpecStory SpecOps SpecCircus
  SpecPopulation SpecLocal SpecSupply Fs SpecFs SpecLedger SpecRecords SpecNow.

(** The operation that gives the attribute [x] of the members [who b] the values [what b]. *)
Inductive rewrites (x : nat) (b : book) : op -> list string -> book -> Prop :=
| a_rewriting : rewrites x b (OpAttrUpdate x (who b) (what b)) [] b.

(** The stories give the attribute [x] new values only by such operations, and log each of them in [b]. *)
Definition journal_of (w : world) (x : nat) (b : book) : Prop :=
  single_valued w x /\ forall i s, nth_error (w_stories w) i = Some s -> keeps_books w (OAttribute x) [b] (rewrites x b) s.

(** The journal also tells, in the column [was], the value before: it is looked up before the attribute
    changes. *)
Definition tells_before (w : world) (x : nat) (b : book) (was : string) : Prop :=
  tidy w (log_of b) /\
  forall a s before names ex afterwards, nth_error (w_stories w) a = Some s -> st_ops s = before ++ OpFieldLogger (log_of b) names ex :: afterwards ->
    ex = [] /\ (names = [] \/ In (who b) names /\ In (what b) names /\ In was names) /\
    exists earlier p attribute select po later,
      before = earlier ++ OpLookup p (who b) select :: later /\ In (attribute, was) select /\ untouched_attribute w earlier x /\
      nth_error (w_pops w) p = Some po /\ dget attribute (p_attrs po) = Some x.

(** A single member: neither a missing value nor a list of members. *)
Definition single (k : val) : Prop := k <> VNA /\ forall l, k <> VList l.

(** The records about the member [k]. *)
Definition records_about (b : book) (k : val) (rs : list record) : list record := filter (fun r => val_eqb (r (who b)) k) rs.
