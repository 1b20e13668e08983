(** Specification vocabulary for clocks and cyclic timers. *)
From Verif Require Import Base Clock.

(** Weight the profile gives to the period containing date [t]: the profile
    starts at its start date and repeats for ever in both directions. *)
Definition weight_at (p : timer_profile) (t : Z) : Q :=
  nth (Z.to_nat (((t - p_start p) / p_step p) mod Z.of_nat (length (p_weights p)))) (p_weights p) 0%Q.

(** Weights of [n] consecutive clock steps starting at [t]. *)
Definition weights_from (p : timer_profile) (t cstep : Z) (n : nat) : list Q :=
  map (fun i => weight_at p (t + Z.of_nat i * cstep)%Z) (seq 0 n).

(** [cdf] is the cumulative distribution of the weights [ws]. *)
Definition is_cdf_of (cdf ws : list Q) : Prop :=
  length cdf = length ws /\ (0 < qsum ws)%Q /\
  forall i c, nth_error cdf i = Some c -> (c * qsum ws == qsum (firstn (S i) ws))%Q.

(** Start of the [k]-th bin of a clock started at date [start]: the bins of the
    clock are counted from the profile's start date, the first one is the
    first that starts at [start] or later ([start] itself when aligned). *)
Definition bin_start (p : timer_profile) (start cstep : Z) (k : Z) : Z :=
  (start + (p_start p - start) mod cstep + k * cstep)%Z.

(** a timer generator after [k] ticks *)
Definition ticks (k : nat) (y : cyclic) : cyclic := Nat.iter k cyclic_increment y.

(** [y] was built for profile [p] by a clock at date [start] and has seen [k] ticks and
    any number of calls of generate. *)
Inductive live (p : timer_profile) (start cstep : Z) : nat -> cyclic -> Prop :=
| live_new st y : new_cyclic p start cstep st = Ok y -> live p start cstep 0 y
| live_tick k y : live p start cstep k y -> live p start cstep (S k) (cyclic_increment y)
| live_generate k y obs ts y' : live p start cstep k y -> cyclic_generate y obs = Ok (ts, y') ->
    live p start cstep k y'.

(** The rows of a Series with a positive value, those up to 2 first. *)
Definition positive_rows (obs : list (val * Q)) : list (val * Q) :=
  filter (fun o => is_low (snd o)) obs ++ filter (fun o => is_high (snd o)) obs.

(** Hour [h] of a week (0 is Monday midnight) is a work hour. *)
Definition in_work_hours (s e : Z) (h : nat) : bool :=
  (h / 24 <? 5) && (s <=? Z.of_nat (h mod 24))%Z && (Z.of_nat (h mod 24) <=? e)%Z.
