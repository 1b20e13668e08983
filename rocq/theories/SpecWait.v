(** How long a member of a story can wait before acting. *)
From Verif Require Import Base Clock World Story SpecStory.
From Coq Require Import Qround.

(** Whatever its state, [i] has an activity of at least [lo]: it should act [lo] times per
    cycle of the timer. *)
Definition activity_at_least (w : world) (a : nat) (i : val) (lo : Q) : Prop :=
  forall s, nth_error (w_stories w) a = Some s -> forall st q, activity_in s i st q -> (lo <= q)%Q.

(** The steps of a cycle of the timer, times 2 / lo rounded up. *)
Definition longest_wait (y : cyclic) (lo : Q) : Z := (Z.of_nat (y_bins y) * Qceiling (2 / lo))%Z.
