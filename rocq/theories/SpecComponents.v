(** Specification vocabulary for social networks. *)
From Verif Require Import Base Relationship SpecRelationship.

(** The edges of a simple undirected graph on 0..n-1, each listed once. *)
Definition simple_graph (n : nat) (es : list (nat * nat)) : Prop :=
  NoDup es /\ forall a b, In (a, b) es -> a < b /\ b < n.

(** A relationship that is a simple undirected graph on [members]. *)
Definition social_network (members : list val) (rel : relationship) : Prop :=
  (forall a b, related rel a b -> related rel b a) /\
  (forall a b, related rel a b -> In a members /\ In b members) /\
  (forall a, ~ related rel a a) /\
  NoDup (map fst (stored rel)).
