(** Where the subscribers of tests/scenarios/test_cdr.py are and how its cells do (C149). *)
From Verif Require Import Base BaseFacts Rng Utils Relationship RelationshipFacts SpecRelationship Frame Gens Clock SpecClock Attribute SpecAttribute AttributeFacts World Story Ops Helpers
  Fs Circus SpecStory SpecOps SpecCircus SpecWorld WorldProps SpecPopulation GensKept PopProps SpecLocal CircusProps SpecSupply SpecFs SpecLedger SpecRecords RecordsGens RecordsProps RecordsMore
  SpecNow NowProps SpecJournal JournalProps SpecSafe SafeRun Samples StorySamples PropCircus PropRecords PropNow PropSafe Geography PropGeography Cdr SpecCdr PropCdr SpecCdrLogs SpecCdrMoves CdrMoves.
From Coq Require Import Permutation Sorted.

(** ** C149.  What the records of the moves and of the cells tell was true when they were logged. *)
Theorem C149_records_true w c src unhealthy healthy subscribers simcards antennas hs L w' :
  cdr_circus w c src unhealthy healthy subscribers simcards antennas -> single_valued w (k_cell c) -> Forall reachable (w_rels w) -> emits w hs L w' ->
  forall id tells, In (id, tells) [("mobility_logs", a_move); ("cell_status", a_status src unhealthy healthy)]%string ->
  exists pasts, Forall2 (true_then tells w c hs) pasts (records id L) /\ StronglySorted earlier pasts.
Proof. exact (fun F Sv Rs H => told_true w c src unhealthy healthy subscribers simcards antennas F hs L w' Sv Rs H). Qed.
Print Assumptions C149_records_true.

Theorem C149_lines_true w c src unhealthy healthy subscribers simcards antennas duration folder del fs w' fs' tr :
  cdr_circus w c src unhealthy healthy subscribers simcards antennas -> single_valued w (k_cell c) -> Forall reachable (w_rels w) -> (0 < Clock.c_step (w_clock w))%Z ->
  startable fs folder del -> run duration folder del w fs = (Ok tt, (w', fs', tr)) ->
  exists n, covers (Clock.c_step (w_clock w)) duration n /\
  forall id tells, In (id, tells) [("mobility_logs", a_move); ("cell_status", a_status src unhealthy healthy)]%string ->
  exists pasts, Forall2 (true_then tells w c (steps_of 6 n)) pasts (recorded fs' folder id) /\ StronglySorted earlier pasts.
Proof.
  intros F Sv Rs Hc St H. destruct (run_recorded _ _ _ _ _ _ _ _ H St Hc) as (n & L & Hn & He & Er). exists n. split; [exact Hn|]. intros id tells Hin.
  rewrite (proj2 (proj2 (proj2 (cdr_numbers _ _ _ _ _ _ _ _ F)))) in He.
  assert (E : recorded fs' folder id = records id L) by (destruct Hin as [[= <- _]|[[= <- _]|[]]]; [exact (Er _ _ (moves_header _ _ _ _ _ _ _ _ F))|exact (Er _ _ (status_header _ _ _ _ _ _ _ _ F))]).
  rewrite E. exact (C149_records_true _ _ _ _ _ _ _ _ _ _ _ F Sv Rs He id tells Hin).
Qed.
Print Assumptions C149_lines_true.

(** Each subscriber is where the last record about them tells, or where they were if there is none; the HEALTH of
    a cell is what the last record about it tells. *)
Theorem C149_places_from_the_records w c src unhealthy healthy subscribers simcards antennas hs L w' :
  cdr_circus w c src unhealthy healthy subscribers simcards antennas -> emits w hs L w' ->
  (single_valued w (k_cell c) -> forall k v, holds w' (k_cell c) k v <->
     last_shows "A_ID" "NEW_CELL" k v (records "mobility_logs" L) \/ nothing_about "A_ID" k (records "mobility_logs" L) /\ holds w (k_cell c) k v) /\
  (single_valued w (k_health c) -> forall k v, holds w' (k_health c) k v <->
     last_shows "CELL_ID" "NEW_HEALTH_LEVEL" k v (records "cell_status" L) \/ nothing_about "CELL_ID" k (records "cell_status" L) /\ holds w (k_health c) k v).
Proof.
  intros F H. split; intros Sv k v.
  - rewrite (C137_journal_tells_value w (k_cell c) moving hs L w' (moves_journal _ _ _ _ _ _ _ _ F Sv) H k v), (last_entry moving), (no_entry moving). reflexivity.
  - rewrite (C137_journal_tells_value w (k_health c) ailing hs L w' (status_journal _ _ _ _ _ _ _ _ F Sv) H k v), (last_entry ailing), (no_entry ailing). reflexivity.
Qed.
Print Assumptions C149_places_from_the_records.

Theorem C149_places_from_the_files w c src unhealthy healthy subscribers simcards antennas duration folder del fs w' fs' tr :
  cdr_circus w c src unhealthy healthy subscribers simcards antennas -> (0 < Clock.c_step (w_clock w))%Z ->
  startable fs folder del -> run duration folder del w fs = (Ok tt, (w', fs', tr)) ->
  (single_valued w (k_cell c) -> forall k v, holds w' (k_cell c) k v <->
     last_shows "A_ID" "NEW_CELL" k v (recorded fs' folder "mobility_logs") \/ nothing_about "A_ID" k (recorded fs' folder "mobility_logs") /\ holds w (k_cell c) k v) /\
  (single_valued w (k_health c) -> forall k v, holds w' (k_health c) k v <->
     last_shows "CELL_ID" "NEW_HEALTH_LEVEL" k v (recorded fs' folder "cell_status") \/ nothing_about "CELL_ID" k (recorded fs' folder "cell_status") /\ holds w (k_health c) k v).
Proof.
  intros F Hc St H. destruct (run_recorded _ _ _ _ _ _ _ _ H St Hc) as (n & L & _ & He & Er).
  rewrite (Er _ _ (moves_header _ _ _ _ _ _ _ _ F)), (Er _ _ (status_header _ _ _ _ _ _ _ _ F)). exact (C149_places_from_the_records _ _ _ _ _ _ _ _ _ _ _ F He).
Qed.
Print Assumptions C149_places_from_the_files.

(** The records about a subscriber lead from the cell where they were to the one where they are, without a gap. *)
Theorem C149_no_gaps w c src unhealthy healthy subscribers simcards antennas hs L w' :
  cdr_circus w c src unhealthy healthy subscribers simcards antennas -> single_valued w (k_cell c) -> Forall reachable (w_rels w) -> emits w hs L w' ->
  forall k v, single k -> holds w (k_cell c) k v -> exists v', holds w' (k_cell c) k v' /\
    let rs := filter (fun r : record => val_eqb (r "A_ID"%string) k) (records "mobility_logs" L) in
    v :: map (fun r : record => r "NEW_CELL"%string) rs = map (fun r : record => r "PREV_CELL"%string) rs ++ [v'].
Proof.
  intros F Sv Rs H. exact (C137_journal_has_no_gaps w (k_cell c) moving "PREV_CELL" hs L w' (moves_journal _ _ _ _ _ _ _ _ F Sv) (moves_before _ _ _ _ _ _ _ _ F) Rs H).
Qed.
Print Assumptions C149_no_gaps.

Theorem C149_files_have_no_gaps w c src unhealthy healthy subscribers simcards antennas duration folder del fs w' fs' tr :
  cdr_circus w c src unhealthy healthy subscribers simcards antennas -> single_valued w (k_cell c) -> Forall reachable (w_rels w) -> (0 < Clock.c_step (w_clock w))%Z ->
  startable fs folder del -> run duration folder del w fs = (Ok tt, (w', fs', tr)) ->
  forall k v, single k -> holds w (k_cell c) k v -> exists v', holds w' (k_cell c) k v' /\
    let rs := filter (fun r : record => val_eqb (r "A_ID"%string) k) (recorded fs' folder "mobility_logs") in
    v :: map (fun r : record => r "NEW_CELL"%string) rs = map (fun r : record => r "PREV_CELL"%string) rs ++ [v'].
Proof.
  intros F Sv Rs Hc St H. destruct (run_recorded _ _ _ _ _ _ _ _ H St Hc) as (n & L & _ & He & Er). rewrite (Er _ _ (moves_header _ _ _ _ _ _ _ _ F)).
  exact (C149_no_gaps _ _ _ _ _ _ _ _ _ _ _ F Sv Rs He).
Qed.
Print Assumptions C149_files_have_no_gaps.

(** The sample of C138, for three hours. *)
Example C149_example : cdr_circus cdr_sample network sample_sources 1 0 sub_names sim_names antenna_names /\ single_valued cdr_sample (k_cell network) /\ single_valued cdr_sample (k_health network) /\
  Forall reachable (w_rels cdr_sample) /\ startable disk logs_folder false /\ single (s_ "A") /\
  let r := run (3 * hour) logs_folder false cdr_sample disk in
  let log := recorded (snd (fst (snd r))) logs_folder in
  let told (id : string) (names : list string) := map (fun r : record => map r names) (log id) in
  fst r = Ok tt /\ told "mobility_logs"%string ["A_ID"; "PREV_CELL"; "NEW_CELL"]%string =
    [[s_ "A"; s_ "X"; s_ "Y"]; [s_ "B"; s_ "X"; s_ "X"]; [s_ "C"; s_ "Y"; s_ "Y"]; [s_ "A"; s_ "Y"; s_ "X"]; [s_ "B"; s_ "X"; s_ "X"]; [s_ "C"; s_ "Y"; s_ "Y"]; [s_ "A"; s_ "X"; s_ "Y"]; [s_ "B"; s_ "X"; s_ "X"]; [s_ "C"; s_ "Y"; s_ "Y"]] /\
  told "cell_status"%string ["CELL_ID"; "NEW_HEALTH_LEVEL"]%string = [[s_ "X"; vz 0]; [s_ "Y"; vz 0]].
Proof.
  split; [exact cdr_sample_shape|]. split; [|split; [|split; [exact (ready_rels _ _ _ _ _ _ _ cdr_sample_ready)|split; [exact logging_startable|split; [split; discriminate|cbv zeta]]]]].
  - destruct (ready_cell _ _ _ _ _ _ _ cdr_sample_ready) as (t & Et & N & _). exists t. auto.
  - destruct (ready_health _ _ _ _ _ _ _ cdr_sample_ready) as (t & Et & N & _). exists t. auto.
  - split; [vm_compute; reflexivity|]. split; vm_compute; reflexivity.
Qed.
