(** Specification vocabulary: a simulation of the scenario of tests/scenarios/test_cdr.py, from its seed to its files. *)
From Verif Require Import Base Rng Frame Gens Clock World Fs Story Ops Circus SpecCircus Cdr CdrSetup SpecCdrSetup.

(** The scenario [c] is constructed in the circus [w]; it runs for [duration], ends in [w'] and leaves the files [fs'].
    The random graphs leave no subscriber without possible cell. *)
Definition simulated (x : cdr_sources) (params : cdr_params) (g : prng) (seed : N) (start step duration : Z) (folder : path) (del : bool) (fs : node lines)
    (c : cdr) (w w' : world) (fs' : node lines) : Prop :=
  sane_sources x /\ nobody_alone x params /\ (second <= step)%Z /\ startable fs folder del /\
  build_cdr x params (new_circus g seed start step) = (Ok c, w) /\ exists tr, run duration folder del w fs = (Ok tt, (w', fs', tr)).
