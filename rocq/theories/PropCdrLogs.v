(** The logs and the accounts of the scenario of tests/scenarios/test_cdr.py (C139, C140). *)
From Verif Require Import Base BaseFacts Rng Utils Relationship RelationshipFacts SpecRelationship Frame Gens Clock SpecClock Attribute SpecAttribute AttributeFacts World Story Ops Helpers
  Fs Circus SpecStory SpecOps SpecCircus SpecWorld WorldProps SpecPopulation GensKept PopProps SpecLocal CircusProps SpecSupply SpecFs SpecLedger SpecRecords RecordsGens RecordsProps RecordsMore
  SpecSafe SafeRun Samples StorySamples PropCircus PropRecords PropSafe SpecChains ChainsProps PropChains GeographyLog Geography PropGeography Cdr SpecCdr CdrFacts CdrProps PropCdr
  SpecCdrLogs CdrLogs CdrBooks.
From Coq Require Import Permutation Sorted.

(** ** C139.  What the records of calls, messages and topups tell was true when they were logged: who calls is
    due, whom they call is a contact of theirs, the numbers, operators and cells are those they had, and so
    on ([a_call], [a_message], [a_topup]). *)
Theorem C139_records_true w c src unhealthy healthy subscribers simcards antennas hs L w' :
  cdr_circus w c src unhealthy healthy subscribers simcards antennas -> cdr_ready w c unhealthy healthy subscribers simcards antennas ->
  ~ In VNA subscribers -> Forall (sensible w) hs -> emits w hs L w' ->
  forall id tells, In (id, tells) [("voice_cdr", a_call); ("sms_cdr", a_message); ("topups", a_topup)]%string ->
  exists pasts, Forall2 (true_then tells w c hs) pasts (records id L) /\ StronglySorted earlier pasts.
Proof.
  intros C R Na Hs H id tells Hin.
  assert (K : In id ["topups"; "voice_cdr"; "sms_cdr"]%string /\ tells = truth_of id) by (destruct Hin as [[= <- <-]|[[= <- <-]|[[= <- <-]|[]]]]; cbn; tauto).
  destruct K as [Hid ->]. exact (cdr_true _ _ _ _ _ _ _ _ C R id hs L w' Na Hid Hs H).
Qed.
Print Assumptions C139_records_true.

Theorem C139_lines_true w c src unhealthy healthy subscribers simcards antennas duration folder del fs w' fs' tr :
  cdr_circus w c src unhealthy healthy subscribers simcards antennas -> cdr_ready w c unhealthy healthy subscribers simcards antennas ->
  ~ In VNA subscribers -> startable fs folder del -> run duration folder del w fs = (Ok tt, (w', fs', tr)) ->
  exists n, covers (Clock.c_step (w_clock w)) duration n /\
  forall id tells, In (id, tells) [("voice_cdr", a_call); ("sms_cdr", a_message); ("topups", a_topup)]%string ->
  exists pasts, Forall2 (true_then tells w c (steps_of 6 n)) pasts (recorded fs' folder id) /\ StronglySorted earlier pasts.
Proof.
  intros C R Na St H. assert (Hc : (0 < Clock.c_step (w_clock w))%Z) by (pose proof (ready_step _ _ _ _ _ _ _ R) as K; unfold second in K; lia).
  destruct (run_recorded _ _ _ _ _ _ _ _ H St Hc) as (n & L & Hn & He & Er). exists n. split; [exact Hn|]. intros id tells Hin.
  assert (Hid : In id ["topups"; "voice_cdr"; "sms_cdr"]%string) by (destruct Hin as [[= <- <-]|[[= <- <-]|[[= <- <-]|[]]]]; cbn; tauto).
  pose proof (steps_sensible w n) as Hs. pose proof (proj2 (proj2 (proj2 (cdr_numbers _ _ _ _ _ _ _ _ C)))) as L6. rewrite L6 in He, Hs.
  rewrite (Er id _ (cdr_header _ _ _ _ _ _ _ _ C id Hid)). exact (C139_records_true _ _ _ _ _ _ _ _ _ _ _ C R Na Hs He id tells Hin).
Qed.
Print Assumptions C139_lines_true.

(** ** C140.  The balance of every SIM card can be recomputed from the logs: it is the initial one, plus the
    topups logged for its number, minus the calls and messages logged for its number. *)
Theorem C140_balance_from_the_records w c src unhealthy healthy subscribers simcards antennas hs L w' :
  cdr_circus w c src unhealthy healthy subscribers simcards antennas -> cdr_ready w c unhealthy healthy subscribers simcards antennas ->
  ~ In VNA subscribers -> numbers_differ w c -> Forall (sensible w) hs -> emits w hs L w' ->
  forall sim number initial, holds w (k_msisdn c) sim number -> holds w (k_main_acct c) sim (VNum initial) ->
  holds w' (k_main_acct c) sim (VNum (initial + sum_of "CUSTOMER_NUMBER" number (records "topups" L)
                                              - sum_of "MSISDN_A" number (records "voice_cdr" L) - sum_of "MSISDN_A" number (records "sms_cdr" L))%Qc).
Proof. intros C R Na Nd Hs H. exact (cdr_balanced _ _ _ _ _ _ _ _ C R hs L w' Na Nd Hs H). Qed.
Print Assumptions C140_balance_from_the_records.

Theorem C140_balance_from_the_files w c src unhealthy healthy subscribers simcards antennas duration folder del fs w' fs' tr :
  cdr_circus w c src unhealthy healthy subscribers simcards antennas -> cdr_ready w c unhealthy healthy subscribers simcards antennas ->
  ~ In VNA subscribers -> numbers_differ w c -> startable fs folder del -> run duration folder del w fs = (Ok tt, (w', fs', tr)) ->
  forall sim number initial, holds w (k_msisdn c) sim number -> holds w (k_main_acct c) sim (VNum initial) ->
  holds w' (k_main_acct c) sim (VNum (initial + sum_of "CUSTOMER_NUMBER" number (recorded fs' folder "topups")
                                              - sum_of "MSISDN_A" number (recorded fs' folder "voice_cdr") - sum_of "MSISDN_A" number (recorded fs' folder "sms_cdr"))%Qc).
Proof.
  intros C R Na Nd St H. assert (Hc : (0 < Clock.c_step (w_clock w))%Z) by (pose proof (ready_step _ _ _ _ _ _ _ R) as K; unfold second in K; lia).
  destruct (run_recorded _ _ _ _ _ _ _ _ H St Hc) as (n & L & _ & He & Er).
  rewrite !(fun id Hid => Er id _ (cdr_header _ _ _ _ _ _ _ _ C id Hid)) by (cbn; tauto).
  exact (C140_balance_from_the_records _ _ _ _ _ _ _ _ _ _ _ C R Na Nd (steps_sensible w n) He).
Qed.
Print Assumptions C140_balance_from_the_files.

(** An instance: the sample of C138, whose numbers differ. *)
Lemma sample_numbers : nth_error (w_attrs cdr_sample) 3 = Some (combine sim_names [s_ "00321"; s_ "00322"; s_ "00323"; s_ "00324"]).
Proof. vm_compute. reflexivity. Qed.
Lemma sample_numbers_differ : numbers_differ cdr_sample network.
Proof.
  intros sim sim' m (t & Et & H) (t' & Et' & H'). change (k_msisdn network) with 3 in Et, Et'. rewrite sample_numbers in Et, Et'. injection Et as <-. injection Et' as <-. clear - H H'.
  cbn in H, H'. repeat (destruct H as [H|H]; [injection H as <- <-|]); try contradiction; repeat (destruct H' as [H'|H']; [first [discriminate H'|injection H' as <-; reflexivity]|]); contradiction.
Qed.
(** Three hours of it: the calls, messages and topups logged, and the balances left (1000 each at first). *)
Example C139_example : cdr_circus cdr_sample network sample_sources 1 0 sub_names sim_names antenna_names /\
  cdr_ready cdr_sample network 1 0 sub_names sim_names antenna_names /\ ~ In VNA sub_names /\ numbers_differ cdr_sample network /\ startable disk logs_folder false /\
  let r := run (3 * hour) logs_folder false cdr_sample disk in
  let log := recorded (snd (fst (snd r))) logs_folder in
  let told (id : string) (names : list string) := map (fun r : record => map r names) (log id) in
  fst r = Ok tt /\
  told "voice_cdr"%string ["MSISDN_A"; "MSISDN_B"; "VALUE"]%string =
    [[s_ "00322"; s_ "00323"; vz 120]; [s_ "00324"; s_ "00321"; vz 40]; [s_ "00322"; s_ "00323"; vz 478];
     [s_ "00323"; s_ "00322"; vz 120]; [s_ "00323"; s_ "00322"; vz 40]; [s_ "00324"; s_ "00323"; vz 478]] /\
  told "sms_cdr"%string ["MSISDN_A"; "MSISDN_B"; "VALUE"]%string =
    [[s_ "00322"; s_ "00323"; vz 10]; [s_ "00324"; s_ "00321"; vz 10]; [s_ "00322"; s_ "00323"; vz 10];
     [s_ "00324"; s_ "00321"; vz 10]; [s_ "00323"; s_ "00322"; vz 10]; [s_ "00324"; s_ "00323"; vz 10]] /\
  told "topups"%string ["CUSTOMER_NUMBER"; "MAIN_ACCT_OLD"; "VALUE"; "MAIN_ACCT"]%string =
    [[s_ "00322"; vz 870; vz 1000; vz 1870]; [s_ "00324"; vz 950; vz 1000; vz 1950]; [s_ "00323"; vz 880; vz 1000; vz 1880]] /\
  nth_error (w_attrs (fst (fst (snd r)))) (k_main_acct network) = Some (combine sim_names [vz 1000; vz 1382; vz 1830; vz 1452]).
Proof.
  split; [exact cdr_sample_shape|]. split; [exact cdr_sample_ready|]. split; [cbn; clear; intuition discriminate|]. split; [exact sample_numbers_differ|]. split; [exact logging_startable|]. cbv zeta.
  split; [vm_compute; reflexivity|].
  split; [vm_compute; reflexivity|]. split; [vm_compute; reflexivity|]. split; vm_compute; reflexivity.
Qed.
