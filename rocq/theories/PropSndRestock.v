(** The orders of the distributors of tests/scenarios/test_snd.py (C147), and stories forced by operations (C04). *)
From Verif Require Import Base BaseFacts Rng Utils Relationship RelationshipFacts SpecRelationship Frame Gens Clock SpecClock Attribute SpecAttribute AttributeFacts World Story Ops Helpers
  Fs Circus SpecStory SpecOps SpecCircus SpecWorld WorldProps SpecPopulation GensKept PopProps SpecLocal CircusProps SpecSupply SpecFs SpecLedger SpecRecords RecordsGens RecordsProps RecordsMore
  SpecNow NowProps SpecSafe SafeRun Samples StorySamples StoryWorld2 StoryForce PropStory PropCircus PropRecords PropOps PropSafe Cdr SpecCdr PropCdr SpecCdrLogs Snd SpecSnd SpecSndReady SndBooks SndTruth SndSafe SpecSndRestock SndRestock
  PropSnd PropHolidays PropSndSafe.
From Coq Require Import Permutation.

(** ** C04, for the operation force_act_next of any story: a row whose cell names a member of the story [b] makes
    that member act at the next execution of [b], whatever happens in between. *)
Theorem C04_force_by_operation a b w l w' s ops1 f cond ops2 d1 l1 w1 i row h :
  execute a w = (Ok l, w') -> distinct_members w -> nth_error (w_stories w) a = Some s -> due_members s <> [] ->
  st_ops s = ops1 ++ OpForce b f cond :: ops2 ->
  run_chain ops1 (story_rows (st_field s) (due_members s)) (at_start a w) = (Ok (d1, l1), w1) ->
  In row (df_rows d1) -> cell (df_cols d1) (snd row) f = i -> i <> VNA ->
  match cond with None => True | Some c => cell (df_cols d1) (snd row) c = VBool true end ->
  executions b h = 0 -> acts_now (after w' h) b i.
Proof. exact (op_force a b w l w' s ops1 f cond ops2 d1 l1 w1 i row h). Qed.
Print Assumptions C04_force_by_operation.

(** Those who call make the same persons visit. *)
Example C04_force_by_operation_example :
  let w := after (town2 0 true PropStory.logging 0 true [OpFieldLogger "calls" [] []; OpForce 0 "PERSON" None]) [HForce 1 [s_ "B"]] in
  distinct_members w /\ due_now w 1 = [s_ "B"] /\ ~ acts_now w 0 (s_ "B") /\ is_ok (fst (execute 1 w)) = true /\
  is_ok (fst (run_chain [OpFieldLogger "calls" [] []] (story_rows "PERSON" [s_ "B"]) (at_start 1 w))) = true /\
  acts_now (after w [HExec 1; HReset 0 None; HTick 0 [s_ "B"]; HClock]) 0 (s_ "B").
Proof.
  intros w. split; [apply (after_distinct [_]); eapply C12_members_distinct, town2_built|]. split; [vm_compute; reflexivity|]. split; [apply due_now_not; vm_compute; reflexivity|].
  split; [vm_compute; reflexivity|]. split; [vm_compute; reflexivity|]. apply due_now_acts. vm_compute. reflexivity.
Qed.

(** ** C147.  The number of SIMs a distributor has to restock is what it was, plus what dealers are logged to have
    bought from it, minus what it is logged to have restocked. *)
Theorem C147_counter_from_the_records w c distributors dealers agents hs L w' k x : snd_circus w c distributors dealers agents -> snd_ready w c distributors dealers agents ->
  emits w hs L w' -> k <> VNA -> holds w (n_to_restock c) k (VNum x) ->
  holds w' (n_to_restock c) k (VNum (x + bought_from k (records "bulk_purchases" L) - restocked k (records "distributor_restock" L))%Qc).
Proof. intros F R. exact (counter_follows _ _ _ _ _ F R hs L w' k x). Qed.
Print Assumptions C147_counter_from_the_records.

(** ... that is, of what the log files of a run show. *)
Theorem C147_counter_from_the_files w c distributors dealers agents duration folder del fs w' fs' tr k x : snd_circus w c distributors dealers agents -> snd_ready w c distributors dealers agents ->
  startable fs folder del -> run duration folder del w fs = (Ok tt, (w', fs', tr)) -> k <> VNA -> holds w (n_to_restock c) k (VNum x) ->
  holds w' (n_to_restock c) k (VNum (x + bought_from k (recorded fs' folder "bulk_purchases") - restocked k (recorded fs' folder "distributor_restock"))%Qc).
Proof.
  intros F R St H Nk Hx. pose proof (ready_tick _ _ _ _ _ R) as Hc. unfold second in Hc. destruct (run_recorded _ _ _ _ _ _ _ _ H St ltac:(lia)) as (n & L & _ & He & Er).
  rewrite (Er _ _ (snd_header _ _ _ _ _ F "bulk_purchases" a_bulk_purchase ltac:(cbn; tauto))), (Er _ _ (snd_header _ _ _ _ _ F "distributor_restock" a_restock ltac:(cbn; tauto))).
  exact (counter_follows _ _ _ _ _ F R _ L w' k x He Nk Hx).
Qed.
Print Assumptions C147_counter_from_the_files.

(** No distributor restocks more than dealers bought from it: its number is never negative, and whole. *)
Theorem C147_never_more_than_bought w c distributors dealers agents hs L w' k x : snd_circus w c distributors dealers agents -> snd_ready w c distributors dealers agents ->
  Forall (sensible w) hs -> emits w hs L w' -> k <> VNA -> holds w (n_to_restock c) k (VNum x) ->
  exists n, (x + bought_from k (records "bulk_purchases" L) = restocked k (records "distributor_restock" L) + qnat n)%Qc /\ holds w' (n_to_restock c) k (vnat n).
Proof.
  intros F R Hs He Nk Hx. pose proof (counter_follows _ _ _ _ _ F R hs L w' k x He Nk Hx) as H.
  destruct (counter_counts _ _ _ _ _ F R hs w' Hs (CircusFacts.emits_history _ _ _ _ He) _ _ H) as (n & E). exists n. split; [|now rewrite <- E].
  apply VNum_inj in E. change (Q2Qc (inject_Z (Z.of_nat n))) with (qnat n) in E. rewrite <- E. ring.
Qed.
Print Assumptions C147_never_more_than_bought.

(** Whenever restocks are executed, each distributor who is due is logged once, with the number it has to
    restock; it receives exactly that many SIMs, and its number becomes 0. *)
Theorem C147_restock_settles w c distributors dealers agents past L w1 l w2 k : snd_circus w c distributors dealers agents -> snd_ready w c distributors dealers agents ->
  NoDup distributors -> ~ In VNA distributors -> emits w past L w1 -> execute restock w1 = (Ok l, w2) -> acts_now w1 restock k ->
  exists r n, of_whom "DISTRIBUTOR_ID" k (records "distributor_restock" l) = [r] /\ r "SIMS_TO_RESTOCK"%string = vnat n /\
    holds w1 (n_to_restock c) k (vnat n) /\ holds w2 (n_to_restock c) k (vnat 0) /\ length (items w2 (n_distro_sims c) k) = length (items w1 (n_distro_sims c) k) + n.
Proof. intros F R. exact (restock_settles _ _ _ _ _ F R past L w1 l w2 k). Qed.
Print Assumptions C147_restock_settles.

(** A distributor from whom a dealer is logged to have bought is due at the next execution of the restocks. *)
Theorem C147_restocks_after_a_sale w c distributors dealers agents past L w1 l w2 r k between : snd_circus w c distributors dealers agents ->
  distinct_members w -> emits w past L w1 -> execute bulk_purchases w1 = (Ok l, w2) -> In r (records "bulk_purchases" l) -> r "DISTRIBUTOR"%string = k -> k <> VNA ->
  executions restock between = 0 -> acts_now (after w2 between) restock k.
Proof.
  intros F D He. refine (order_forces _ _ _ _ _ F w1 l w2 r k between _ (emits_distinct _ _ _ _ He D)). exact (emits_since _ _ _ _ _ (start_since _ _ _ _ _ F) He).
Qed.
Print Assumptions C147_restocks_after_a_sale.

(** The sample of C141 after three hours: two dealers bought three SIMs from D1, which is due. *)
Example C147_example : snd_circus snd_sample shops distro_names dealer_names agent_names /\ snd_ready snd_sample shops distro_names dealer_names agent_names /\
  distinct_members snd_sample /\ NoDup distro_names /\ ~ In VNA distro_names /\ startable disk logs_folder false /\ holds snd_sample (n_to_restock shops) (s_ "D1") (vnat 0) /\
  exists past L w1 l w2, emits snd_sample past L w1 /\ execute restock w1 = (Ok l, w2) /\ acts_now w1 restock (s_ "D1") /\ holds w1 (n_to_restock shops) (s_ "D1") (vnat 3) /\
    length (items w1 (n_distro_sims shops) (s_ "D1")) = 2 /\ length (items w2 (n_distro_sims shops) (s_ "D1")) = 5 /\
  exists past L w1 l w2 (r : record), emits snd_sample past L w1 /\ execute bulk_purchases w1 = (Ok l, w2) /\ In r (records "bulk_purchases" l) /\ r "DISTRIBUTOR"%string = s_ "D1" /\
    ~ acts_now w1 restock (s_ "D1").
Proof.
  split; [exact snd_sample_shape|]. split; [exact snd_sample_ready|]. split; [exact (C12_members_distinct _ _ snd_sample_built)|]. split; [apply nodupb_NoDup; reflexivity|].
  split; [cbn; clear; intuition discriminate|]. split; [exact logging_startable|].
  assert (A0 : nth_error (w_attrs snd_sample) 0 = Some [(s_ "D1", vnat 0)]) by (vm_compute; reflexivity).
  assert (R : fst (run (3 * hour) logs_folder false snd_sample disk) = Ok tt) by (vm_compute; reflexivity). destruct (sample_emits 3 R) as (hs & L & He). clear R.
  assert (C1 : nth_error (w_attrs (after_hours 3)) 0 = Some [(s_ "D1", vnat 3)]) by (vm_compute; reflexivity).
  assert (C2 : option_map due_members (nth_error (w_stories (after_hours 3)) restock) = Some [s_ "D1"]) by (vm_compute; reflexivity).
  assert (C3 : is_ok (fst (execute restock (after_hours 3))) = true) by (vm_compute; reflexivity). apply (ran []) in C3.
  assert (C4 : length (items (after_hours 3) (n_distro_sims shops) (s_ "D1")) = 2) by (vm_compute; reflexivity).
  assert (C5 : length (items (snd (execute restock (after_hours 3))) (n_distro_sims shops) (s_ "D1")) = 5) by (vm_compute; reflexivity).
  split; [eexists; split; [exact A0|now left]|]. clear A0.
  assert (R : fst (run (2 * hour) logs_folder false snd_sample disk) = Ok tt) by (vm_compute; reflexivity). destruct (sample_emits 2 R) as (hs2 & L2 & He2). clear R.
  assert (B2 : option_map due_members (nth_error (w_stories (after_hours 2)) restock) = Some []) by (vm_compute; reflexivity).
  assert (B3 : is_ok (fst (execute bulk_purchases (after_hours 2))) = true) by (vm_compute; reflexivity). apply (ran []) in B3.
  assert (B4 : existsb (fun r : record => val_eqb (r "DISTRIBUTOR"%string) (s_ "D1")) (records "bulk_purchases" (ok_or [] (fst (execute bulk_purchases (after_hours 2))))) = true) by (vm_compute; reflexivity).
  apply existsb_exists in B4 as (r & Hr & B4). apply val_eqb_eq in B4.
  revert He2 B2 B3 Hr. generalize (after_hours 2). intros w0 He2 B2 B3 Hr.
  revert He C1 C2 C3 C4 C5. generalize (after_hours 3). intros w1 He C1 C2 C3 C4 C5.
  exists hs, L, w1, (ok_or [] (fst (execute restock w1))), (snd (execute restock w1)).
  split; [exact He|]. split; [exact C3|]. split; [|split; [eexists; split; [exact C1|now left]|split; [exact C4|split; [exact C5|]]]].
  - unfold acts_now. destruct (nth_error (w_stories w1) restock) as [s|]; [|discriminate]. exists s. split; [reflexivity|]. cbn [option_map] in C2. injection C2 as ->. now left.
  - exists hs2, L2, w0, (ok_or [] (fst (execute bulk_purchases w0))), (snd (execute bulk_purchases w0)), r. split; [exact He2|]. split; [exact B3|]. split; [exact Hr|]. split; [exact B4|].
    intros (s & Es & Hs). rewrite Es in B2. cbn [option_map] in B2. injection B2 as B2. rewrite B2 in Hs. destruct Hs.
Qed.
