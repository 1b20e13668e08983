(** Specification vocabulary: holidays in the scenario of tests/scenarios/test_snd.py (C143). *)
From Verif Require Import Base Rng Clock World Story Ops Circus SpecStory Snd.

(** The agent is on holidays: their activity in the purchases story is then 0, and they do not return by chance. *)
Definition on_holidays (w : world) (agent : val) : Prop :=
  in_state w purchases agent "on_holiday" /\
  forall s, nth_error (w_stories w) purchases = Some s ->
    (forall q, activity_in s agent "on_holiday" q -> (q == 0)%Q) /\ (forall q, back_probability_in s agent "on_holiday" q -> (q <= 0)%Q).

(** Nobody calls force_act_next, reset_timers or timer_tick of the purchases story by hand. *)
Definition by_itself (hs : list happening) : Prop :=
  forall h, In h hs -> match h with HForce b _ | HReset b _ | HTick b _ => b <> purchases | _ => True end.

(** The operation that set_operations adds to the purchases story draws its numbers as it should. *)
Definition fair_judge (w : world) : Prop :=
  forall s judge, nth_error (w_stories w) purchases = Some s -> In (OpBack purchases judge) (st_ops s) -> uniform_generator w judge.
