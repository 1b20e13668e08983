(** Specification vocabulary for operations grouped into chains. *)
From Verif Require Import Base Rng Utils Relationship Frame Gens Clock Attribute World Story Ops Circus.

(** Two lists of operations that differ only in how they are grouped into chains. *)
Inductive regrouped : list op -> list op -> Prop :=
| regrouped_same l : regrouped l l
| regrouped_chain l : regrouped [OpChain l] l
| regrouped_parts l1 l1' l2 l2' : regrouped l1 l1' -> regrouped l2 l2' -> regrouped (l1 ++ l2) (l1' ++ l2')
| regrouped_sym l l' : regrouped l l' -> regrouped l' l
| regrouped_trans l l' l'' : regrouped l l' -> regrouped l' l'' -> regrouped l l''.

(** Two stories, two circuses, that differ only in this. *)
Definition regrouped_story (s s' : story) : Prop := exists ops, s' = with_ops s ops /\ regrouped (st_ops s) ops.
Definition regrouped_circus (w w' : world) : Prop := exists stories, w' = set_stories stories w /\ Forall2 regrouped_story (w_stories w) stories.
