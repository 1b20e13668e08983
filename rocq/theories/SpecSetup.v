(** Specification vocabulary: how stories are set up (C144). *)
From Verif Require Import Base Rng Frame Gens World Story.

(** [size] values are asked from each of the generators [gs] in turn. *)
Inductive drawn (size : Z) : list gen -> list nat -> list gen -> Prop :=
| drawn_none gens : drawn size gens [] gens
| drawn_next gens g vs gens1 gs gens2 : gen_generate gens g size = Ok (vs, gens1) -> drawn size gens1 gs gens2 -> drawn size gens (g :: gs) gens2.

(** Generator [g] gives these numbers, one for each member. *)
Definition gives (gens : list gen) (g : nat) (size : Z) (qs : list Q) (gens' : list gen) : Prop :=
  exists vs, gen_generate gens g size = Ok (vs, gens') /\ Forall2 (fun v q => as_Q v = Ok q) vs qs.

(** The states of a story: "default" and those declared. *)
Definition all_states (default : state_gens) (states : option (dict string state_gens)) : list (string * state_gens) :=
  ("default"%string, default) :: match states with Some d => d | None => [] end.

(** The generators of some states: those of activities and of probabilities. *)
Definition gens_of (states : list (string * state_gens)) : list nat := flat_map (fun x => [fst (snd x); snd (snd x)]) states.

(** The seeds of [seed_provider]: the [k]-th value of the generator. *)
Fixpoint kth_seed (st : rng) (k : nat) : N :=
  match k with O => fst (next_seed st) | S k' => kth_seed (snd (next_seed st)) k' end.
