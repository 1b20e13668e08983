(** Specification vocabulary: which random numbers a call uses (C109). *)
From Verif Require Import Base Rng Gens Clock SpecRandom.

(** The next [n] numbers of both sources are the same. *)
Definition agree (n : nat) (r r2 : rng) : Prop := forall k, k < n -> tape r (pos r + k) = tape r2 (pos r2 + k).

(** A call [f] on a source uses up exactly the numbers its outcome depends on: it leaves the
    source [n] numbers later, and on any source with the same [n] next numbers it gives the same
    outcome, leaving that source [n] numbers later too.  So no number serves twice. *)
Definition uses_up {A} (f : rng -> result (A * rng)) : Prop :=
  forall r x r', f r = Ok (x, r') -> exists n, drawn n r r' /\
    forall r2, agree n r r2 -> exists r2', f r2 = Ok (x, r2') /\ drawn n r2 r2'.

(** The source of a generator that has one, and the generator with another source. *)
Definition source_of (g : gen) : option rng :=
  match g with
  | GNumpy _ st None => Some st
  | GNumpy _ _ (Some b) => Some b
  | GPareto _ _ _ st => Some st
  | _ => None
  end.
Definition with_source (g : gen) (st : rng) : gen :=
  match g with
  | GNumpy m _ None => GNumpy m st None
  | GNumpy m s (Some _) => GNumpy m s (Some st)
  | GPareto x f l _ => GPareto x f l st
  | _ => g
  end.
(** A cyclic timer generator with another source. *)
Definition timer_with (y : cyclic) (st : rng) : cyclic := mkCyclic (y_config y) st (y_bins y) (y_profile y).
