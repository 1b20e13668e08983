(** Specification vocabulary for the orders of the distributors of tests/scenarios/test_snd.py. *)
From Verif Require Import Base Frame Gens World Circus SpecStory SpecCircus SpecLedger SpecRecords SpecCdrLogs Snd SpecSnd.

(** What dealers are logged to have bought from a distributor; what it is logged to have restocked. *)
Definition bought_from (k : val) (bulk_records : list record) : Qc := sum_shown "NUMBER_OF_SIMS" (of_whom "DISTRIBUTOR" k bulk_records).
Definition restocked (k : val) (restock_records : list record) : Qc := sum_shown "SIMS_TO_RESTOCK" (of_whom "DISTRIBUTOR_ID" k restock_records).
