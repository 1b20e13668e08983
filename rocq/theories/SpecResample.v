(** Specification vocabulary for cyclic timers of any profile step and clock step. *)
From Coq Require Import Qround.
From Verif Require Import Base Rng Clock SpecClock Resample.

(** Number of bins of the clock's grid between the grid point at or before the start
    [first] of a cycle and its end [last]. *)
Definition bins_of (first last cstep : Z) : nat := Z.to_nat ((last - grid_start first cstep) / cstep).

(** Bins of a cycle of [p] that starts at [base]. *)
Definition cycle_bins (p : timer_profile) (base cstep : Z) : nat := bins_of base (base + profile_duration p) cstep.

(** Weights that profile [p] gives to the dates base, base + cstep, ... of the [n] bins of one
    cycle, from bin [j] on and around. *)
Definition sampled_weights (p : timer_profile) (base cstep : Z) (n j : nat) : list Q :=
  map (fun i => weight_at p (base + Z.of_nat ((j + i) mod n) * cstep)%Z) (seq 0 n).

(** [z] was built for profile [p] by a clock at date [now] and has seen [k] ticks and any
    number of calls of generate. *)
Inductive wide_live (p : timer_profile) (now cstep : Z) : nat -> wide -> Prop :=
| wide_new st z : new_wide p now cstep st = Ok z -> wide_live p now cstep 0 z
| wide_tick k z : wide_live p now cstep k z -> wide_live p now cstep (S k) (wide_increment z)
| wide_gen k z obs ts z' : wide_live p now cstep k z -> wide_generate z obs = Ok (ts, z') -> wide_live p now cstep k z'.

(** The resampled profile starts with a missing value: its cycle does not start on the
    clock's grid, and the profile's step is not the clock's. *)
Definition misaligned (p : timer_profile) (base cstep : Z) : Prop :=
  grid_start base cstep <> base /\ (p_step p <> cstep \/ length (p_weights p) <= 1).

(** Timer [t] drawn for activity [a], when a uniform number u falls on bin [slot u]. *)
Definition drawn_timer (slot : Q -> nat) (bins : nat) (a : Q) (t : option Z) : Prop :=
  match t with
  | None => (a <= 0)%Q
  | Some d =>
      (0 < a /\ a <= 2)%Q /\
      (exists u, (0 <= u /\ u < 1)%Q /\
         d = Z.max 0 (Z.of_nat (slot (2 * u / a - inject_Z (Qfloor (2 * u / a)))%Q) + Z.of_nat bins * Qfloor (2 * u / a)%Q - 1)) \/
      (2 < a)%Q /\
      (exists u, (0 <= u /\ u <= 1)%Q /\ d = Z.max 0 (Z.of_nat (slot u) - 1))
  end.
