(** Stories without a timer (C152). *)
From Verif Require Import Base BaseFacts Rng Utils Relationship RelationshipFacts SpecRelationship Frame Gens Clock SpecClock Attribute SpecAttribute AttributeFacts World Story Ops Helpers
  Fs Circus SpecStory SpecOps SpecCircus SpecWorld WorldProps SpecPopulation GensKept PopProps SpecLocal CircusProps SpecSupply SpecFs SpecLedger SpecRecords RecordsGens RecordsProps RecordsMore
  SpecSafe SafeRun Samples StorySamples StoryWorld2 PropStory PropCircus PropRecords PropSafe SpecChains ChainsProps PropChains GeographyLog Geography PropGeography Cdr SpecCdr CdrFacts CdrProps PropCdr
  SpecCdrLogs CdrLogs CdrBooks PropCdrLogs Snd SpecSnd SpecSndReady PropSnd PropHolidays PropSndSafe SpecPrompt PromptProps CdrPrompt SndPrompt.
From Coq Require Import Permutation.

(** ** C152.  A story created without timer generator ([TConst (-1)], the default) lets a member act if and only if
    something told that member to act since the last execution of the story. *)
Theorem C152_created_so order name p f default states t auto w a w' po v : create_story order name p f default states t auto w = (Ok a, w') -> (forall l, Permutation (order l) l) ->
  nth_error (w_pops w) p = Some po -> NoDup (p_ids po) -> nth_error (w_tgens w) t = Some (TConst v) -> (v < 0)%Z -> without_timer w' a.
Proof. exact (created_without_timer order name p f default states t auto w a w' po v). Qed.
Print Assumptions C152_created_so.

Theorem C152_acts_iff_told w b i hs w' : distinct_members w -> without_timer w b -> history w hs w' ->
  acts_now w' b i <-> exists before h rest w1, hs = before ++ h :: rest /\ history w before w1 /\ told_during b i w1 h /\ executions b rest = 0.
Proof.
  intros D T H. split; [exact (only_when_told w b i hs w' D T H)|].
  intros (before & h & rest & w1 & E & Hb & Td & X). exact (whenever_told w b i hs w' before h rest w1 D H E Hb Td X).
Qed.
Print Assumptions C152_acts_iff_told.

(** In the CDR scenario, a SIM card is due for a topup only if, since the last execution of the topups, a call or a
    message made from it was logged. *)
Theorem C152_topups_after_spending w c src unhealthy healthy subscribers simcards antennas hs L w' sim :
  cdr_circus w c src unhealthy healthy subscribers simcards antennas -> cdr_ready w c unhealthy healthy subscribers simcards antennas ->
  ~ In VNA subscribers -> distinct_members w -> without_timer w (k_topups c) ->
  Forall (sensible w) hs -> (forall ids, ~ In (HForce (k_topups c) ids) hs) -> emits w hs L w' -> acts_now w' (k_topups c) sim ->
  exists before rest L1 w1 L2 r, hs = before ++ rest /\ emits w before L1 w1 /\ emits w1 rest L2 w' /\ executions (k_topups c) rest = 0 /\
    (In r (records "voice_cdr" L2) \/ In r (records "sms_cdr" L2)) /\ holds w (k_msisdn c) sim (r "MSISDN_A"%string).
Proof. intros C R Na D T Hs Nf H A. exact (spent_before _ _ _ _ _ _ _ _ C R Na D T hs L w' sim Hs Nf H A). Qed.
Print Assumptions C152_topups_after_spending.

(** So every topup that is logged follows a call or a message logged with the same number. *)
Theorem C152_logged_topups w c src unhealthy healthy subscribers simcards antennas past L w1 l w2 r :
  cdr_circus w c src unhealthy healthy subscribers simcards antennas -> cdr_ready w c unhealthy healthy subscribers simcards antennas ->
  ~ In VNA subscribers -> distinct_members w -> without_timer w (k_topups c) ->
  Forall (sensible w) past -> (forall ids, ~ In (HForce (k_topups c) ids) past) -> emits w past L w1 ->
  execute (k_topups c) w1 = (Ok l, w2) -> In r (records "topups" l) ->
  exists before rest L1 w0 L2 spent, past = before ++ rest /\ emits w before L1 w0 /\ emits w0 rest L2 w1 /\ executions (k_topups c) rest = 0 /\
    (In spent (records "voice_cdr" L2) \/ In spent (records "sms_cdr" L2)) /\ spent "MSISDN_A"%string = r "CUSTOMER_NUMBER"%string.
Proof. intros C R Na D T Hs Nf H Hx Hr. exact (topped_up_after_spending _ _ _ _ _ _ _ _ C R Na D T past L w1 l w2 r Hs Nf H Hx Hr). Qed.
Print Assumptions C152_logged_topups.

(** And no number is topped up more often than it called and texted. *)
Theorem C152_no_more_topups w c src unhealthy healthy subscribers simcards antennas hs L w' number :
  cdr_circus w c src unhealthy healthy subscribers simcards antennas -> cdr_ready w c unhealthy healthy subscribers simcards antennas ->
  ~ In VNA subscribers -> distinct_members w -> without_timer w (k_topups c) -> numbers_differ w c ->
  Forall (sensible w) hs -> (forall ids, ~ In (HForce (k_topups c) ids) hs) -> emits w hs L w' ->
  length (of_whom "CUSTOMER_NUMBER" number (records "topups" L)) <=
  length (of_whom "MSISDN_A" number (records "voice_cdr" L)) + length (of_whom "MSISDN_A" number (records "sms_cdr" L)).
Proof. intros C R Na D T Nd Hs Nf H. exact (cdr_counted _ _ _ _ _ _ _ _ C R Na D T hs L w' number Nd Hs Nf H). Qed.
Print Assumptions C152_no_more_topups.

Lemma steps_unforced k n b ids : ~ In (HForce b ids) (steps_of k n).
Proof.
  unfold steps_of. intros H. apply in_concat in H as (l & Hl & H). apply repeat_spec in Hl. subst l. unfold one_step in H.
  apply in_app_iff in H as [H|[H|[]]]; [|discriminate]. apply in_map_iff in H as (a & E & _). discriminate.
Qed.
Theorem C152_no_more_topups_in_the_files w c src unhealthy healthy subscribers simcards antennas duration folder del fs w' fs' tr number :
  cdr_circus w c src unhealthy healthy subscribers simcards antennas -> cdr_ready w c unhealthy healthy subscribers simcards antennas ->
  ~ In VNA subscribers -> distinct_members w -> without_timer w (k_topups c) -> numbers_differ w c ->
  startable fs folder del -> run duration folder del w fs = (Ok tt, (w', fs', tr)) ->
  length (of_whom "CUSTOMER_NUMBER" number (recorded fs' folder "topups")) <=
  length (of_whom "MSISDN_A" number (recorded fs' folder "voice_cdr")) + length (of_whom "MSISDN_A" number (recorded fs' folder "sms_cdr")).
Proof.
  intros C R Na D T Nd St H. assert (Hc : (0 < Clock.c_step (w_clock w))%Z) by (pose proof (ready_step _ _ _ _ _ _ _ R) as K; unfold second in K; lia).
  destruct (run_recorded _ _ _ _ _ _ _ _ H St Hc) as (n & L & _ & He & Er).
  rewrite !(fun id Hid => Er id _ (cdr_header _ _ _ _ _ _ _ _ C id Hid)) by (cbn; tauto).
  exact (C152_no_more_topups _ _ _ _ _ _ _ _ _ _ _ number C R Na D T Nd (steps_sensible w n) (fun ids => steps_unforced _ _ _ ids) He).
Qed.
Print Assumptions C152_no_more_topups_in_the_files.

(** The sample of C138 has no timer for topups.  After one step the SIM cards S2 and S4 are due for a topup; their
    numbers are among those of the calls of that step. *)
Lemma sample_without_timer : without_timer cdr_sample (k_topups network).
Proof.
  assert (E : option_map (fun s => (st_tgen s, st_timer s)) (nth_error (w_stories cdr_sample) 3) = Some (2, map (fun i => (i, ("default"%string, Some (-1)%Z))) sim_names)) by (vm_compute; reflexivity).
  assert (G : nth_error (w_tgens cdr_sample) 2 = Some (TConst (-1))) by (vm_compute; reflexivity). change (k_topups network) with 3.
  revert E G. generalize cdr_sample. intros w E G. destruct (nth_error (w_stories w) 3) as [s|] eqn:Es; [|discriminate]. cbn [option_map] in E. injection E as E1 E2. split.
  - exists (-1)%Z. split; [lia|]. exists s. split; [exact Es|]. rewrite E1. exact G.
  - intros i z (s' & st & Es' & Hi). assert (s' = s) by congruence. subst s'. rewrite E2 in Hi. cbn in Hi. clear - Hi. repeat (destruct Hi as [Hi|Hi]; [injection Hi as _ _ <-; lia|]). destruct Hi.
Qed.
Example C152_example : cdr_circus cdr_sample network sample_sources 1 0 sub_names sim_names antenna_names /\ cdr_ready cdr_sample network 1 0 sub_names sim_names antenna_names /\
  ~ In VNA sub_names /\ distinct_members cdr_sample /\ without_timer cdr_sample (k_topups network) /\ numbers_differ cdr_sample network /\ startable disk logs_folder false /\
  ~ acts_now cdr_sample 3 (s_ "S2") /\
  let step := one_step 6 in let w := after cdr_sample step in
  is_ok (fst (execute 4 (after cdr_sample [HExec 0; HExec 1; HExec 2; HExec 3]))) = true /\ due_now w 3 = [s_ "S2"; s_ "S4"] /\
  is_ok (fst (execute 3 (after w [HExec 0; HExec 1; HExec 2]))) = true /\
  map (fun r : record => r "CUSTOMER_NUMBER"%string) (records "topups" (ok_or [] (fst (execute 3 (after w [HExec 0; HExec 1; HExec 2]))))) = [s_ "00322"; s_ "00324"].
Proof.
  split; [exact cdr_sample_shape|]. split; [exact cdr_sample_ready|]. split; [cbn; clear; intuition discriminate|]. split; [exact (C12_members_distinct _ _ cdr_sample_built)|].
  split; [exact sample_without_timer|]. split; [exact sample_numbers_differ|]. split; [exact logging_startable|]. split; [apply due_now_not; vm_compute; reflexivity|]. cbv zeta.
  split; [vm_compute; reflexivity|]. split; [vm_compute; reflexivity|]. split; vm_compute; reflexivity.
Qed.

(** In the SND scenario, a distributor is due for a restock if and only if a sale of theirs was logged since the last
    execution of the restocks. *)
Theorem C152_restocks_iff_sold w c distributors dealers agents hs L w' k : snd_circus w c distributors dealers agents -> distinct_members w -> without_timer w restock ->
  (forall ids, ~ In (HForce restock ids) hs) -> emits w hs L w' -> k <> VNA ->
  acts_now w' restock k <-> exists before rest L1 w1 L2 r, hs = before ++ rest /\ emits w before L1 w1 /\ emits w1 rest L2 w' /\ executions restock rest = 0 /\
    In r (records "bulk_purchases" L2) /\ r "DISTRIBUTOR"%string = k.
Proof. intros F D T Nf H Nk. exact (restocks_iff_sold w c distributors dealers agents F hs L w' k D T Nf H Nk). Qed.
Print Assumptions C152_restocks_iff_sold.

Lemma snd_without_timer : without_timer snd_sample restock.
Proof.
  assert (E : option_map (fun s => (st_tgen s, st_timer s)) (nth_error (w_stories snd_sample) 0) = Some (2, [(s_ "D1", ("default"%string, Some (-1)%Z))])) by (vm_compute; reflexivity).
  assert (G : nth_error (w_tgens snd_sample) 2 = Some (TConst (-1))) by (vm_compute; reflexivity). unfold restock.
  revert E G. generalize snd_sample. intros w E G. destruct (nth_error (w_stories w) 0) as [s|] eqn:Es; [|discriminate]. cbn [option_map] in E. injection E as E1 E2. split.
  - exists (-1)%Z. split; [lia|]. exists s. split; [exact Es|]. rewrite E1. exact G.
  - intros i z (s' & st & Es' & Hi). assert (s' = s) by congruence. subst s'. rewrite E2 in Hi. destruct Hi as [Hi|[]]. injection Hi as _ _ <-. lia.
Qed.
(** The sample of C141: D1 is not due before the dealers buy (after three hours, C147). *)
Example C152_restock_example : snd_circus snd_sample shops distro_names dealer_names agent_names /\ distinct_members snd_sample /\ without_timer snd_sample restock /\
  (forall n ids, ~ In (HForce restock ids) (steps_of 6 n)) /\ s_ "D1" <> VNA /\ due_now (after snd_sample (steps_of 6 2)) restock = [] /\ due_now (after snd_sample (steps_of 6 3)) restock = [s_ "D1"].
Proof.
  split; [exact snd_sample_shape|]. split; [exact (C12_members_distinct _ _ snd_sample_built)|]. split; [exact snd_without_timer|]. split; [intros n ids; apply steps_unforced|]. split; [discriminate|].
  split; vm_compute; reflexivity.
Qed.
