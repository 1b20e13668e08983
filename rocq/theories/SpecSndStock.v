(** Specification vocabulary for the stocks of the distributors of tests/scenarios/test_snd.py. *)
From Verif Require Import Base Frame Gens World Circus SpecStory SpecCircus SpecLedger SpecRecords Snd SpecSnd.

(** At most one dealer may buy from the distributor [k]. *)
Definition one_client (w : world) (c : snd_names) (dealers : list val) (k : val) : Prop :=
  forall d d', In d dealers -> In d' dealers -> In k (items w (n_distro_of c) d) -> In k (items w (n_distro_of c) d') -> d = d'.
