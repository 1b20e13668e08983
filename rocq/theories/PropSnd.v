(** The logs and the stocks of the scenario of tests/scenarios/test_snd.py (C141, C142). *)
From Verif Require Import Base BaseFacts Rng Utils Relationship RelationshipFacts SpecRelationship Frame Gens Clock SpecClock Attribute SpecAttribute AttributeFacts World Story Ops Helpers
  Fs Circus SpecStory SpecOps SpecCircus SpecWorld WorldProps SpecPopulation GensKept PopProps SpecLocal CircusProps SpecSupply SpecFs SpecLedger SpecRecords RecordsGens RecordsProps RecordsMore
  SpecNow NowProps SpecSafe SafeRun Samples StorySamples PropCircus PropRecords PropOps PropSafe Cdr SpecCdr PropCdr SpecCdrLogs Snd SpecSnd SndBooks SndTruth.
From Coq Require Import Permutation Sorted.

(** ** C141.  What the records of purchases, bulk purchases, restocks, holidays and reviews tell was true when
    they were logged ([a_purchase], [a_bulk_purchase], [a_restock], [a_holiday], [a_review]). *)
Theorem C141_records_true w c distributors dealers agents hs L w' : snd_circus w c distributors dealers agents -> emits w hs L w' ->
  forall id tells, In (id, tells) snd_logs -> exists pasts, Forall2 (was_true tells w c hs) pasts (records id L) /\ StronglySorted earlier pasts.
Proof. intros F H. exact (snd_true _ _ _ _ _ F hs L w' H). Qed.
Print Assumptions C141_records_true.

Theorem C141_lines_true w c distributors dealers agents duration folder del fs w' fs' tr : snd_circus w c distributors dealers agents -> (0 < Clock.c_step (w_clock w))%Z ->
  startable fs folder del -> run duration folder del w fs = (Ok tt, (w', fs', tr)) ->
  exists n, covers (Clock.c_step (w_clock w)) duration n /\
  forall id tells, In (id, tells) snd_logs -> exists pasts, Forall2 (was_true tells w c (steps_of 6 n)) pasts (recorded fs' folder id) /\ StronglySorted earlier pasts.
Proof.
  intros F Hc St H. destruct (run_recorded _ _ _ _ _ _ _ _ H St Hc) as (n & L & Hn & He & Er). exists n. split; [exact Hn|]. intros id tells Hin.
  rewrite (snd_six _ _ _ _ _ F) in He. rewrite (Er id _ (snd_header _ _ _ _ _ F id tells Hin)). exact (C141_records_true _ _ _ _ _ _ _ _ F He id tells Hin).
Qed.
Print Assumptions C141_lines_true.

(** ** C142.  The SIMs of the agents are those that were logged as sold to them.  The stock of a dealer is what
    they had, plus what they are logged to have bought in bulk, minus what they are logged to have sold.  So
    a dealer who is not of the population of the dealers never sells more than they had ("broke dealer should
    have maximum 3 successful sales", test_snd.py:523-525). *)
Theorem C142_stocks_from_the_records w c distributors dealers agents hs L w' : snd_circus w c distributors dealers agents -> emits w hs L w' ->
  let sold := successful (records "purchases" L) in
  Permutation (pairs_of w' (n_agent_sims c)) (pairs_of w (n_agent_sims c) ++ map (fun r : record => (r "AGENT", r "SOLD_SIM")%string) sold) /\
  (forall dealer, (qnat (length (items w' (n_dealer_sims c) dealer)) =
     qnat (length (items w (n_dealer_sims c) dealer)) + sum_shown "NUMBER_OF_SIMS" (of_whom "DEALER_ID" dealer (records "bulk_purchases" L)) - qnat (length (of_whom "DEALER" dealer sold)))%Qc) /\
  (forall dealer, ~ In dealer dealers -> length (of_whom "DEALER" dealer sold) <= length (items w (n_dealer_sims c) dealer)).
Proof.
  intros F H sold. pose proof (booked_all _ _ _ _ _ F hs L w' H) as B. split; [exact (bk_owned _ _ _ _ B)|]. split.
  - intros dealer. pose proof (bk_dealt _ _ _ _ B dealer) as K. rewrite <- K. unfold sold_in. fold sold. ring.
  - intros dealer Nd. pose proof (outsider_sales _ _ _ _ _ F hs L w' dealer H Nd) as K. fold sold in K. lia.
Qed.
Print Assumptions C142_stocks_from_the_records.

Theorem C142_stocks_from_the_files w c distributors dealers agents duration folder del fs w' fs' tr : snd_circus w c distributors dealers agents -> (0 < Clock.c_step (w_clock w))%Z ->
  startable fs folder del -> run duration folder del w fs = (Ok tt, (w', fs', tr)) ->
  let sold := successful (recorded fs' folder "purchases") in
  Permutation (pairs_of w' (n_agent_sims c)) (pairs_of w (n_agent_sims c) ++ map (fun r : record => (r "AGENT", r "SOLD_SIM")%string) sold) /\
  (forall dealer, (qnat (length (items w' (n_dealer_sims c) dealer)) =
     qnat (length (items w (n_dealer_sims c) dealer)) + sum_shown "NUMBER_OF_SIMS" (of_whom "DEALER_ID" dealer (recorded fs' folder "bulk_purchases")) - qnat (length (of_whom "DEALER" dealer sold)))%Qc) /\
  (forall dealer, ~ In dealer dealers -> length (of_whom "DEALER" dealer sold) <= length (items w (n_dealer_sims c) dealer)).
Proof.
  intros F Hc St H. destruct (run_recorded _ _ _ _ _ _ _ _ H St Hc) as (n & L & _ & He & Er).
  rewrite (Er _ _ (snd_header _ _ _ _ _ F "purchases" a_purchase ltac:(cbn; tauto))), (Er _ _ (snd_header _ _ _ _ _ F "bulk_purchases" a_bulk_purchase ltac:(cbn; tauto))).
  exact (C142_stocks_from_the_records _ _ _ _ _ _ _ _ F He).
Qed.
Print Assumptions C142_stocks_from_the_files.

(** An instance: three agents, two dealers and a broke one, a distributor. *)
Definition shops : snd_names := mkSnd 1 2 0 3 0 1 2 3 4 0 1 2 3 4 5 6 7 when.
Definition distro_names : list val := [s_ "D1"].
Definition dealer_names : list val := [s_ "P"; s_ "Q"].
Definition agent_names : list val := [s_ "A"; s_ "B"; s_ "C"].
Definition shop_calls : list call :=
  [CNewTimer (TConst (-1)) false; CNewTimer (TConst 1) false;
   CNewGen (GSeq 4 "SIM_" 3); CNewGen (GSeq 0 "REVIEW_ID" 1); CNewGen (GConst (s_ "Good.")); CNewGen (GConst (s_ "going")); CNewGen (GConst (s_ "returning"));
   CPopulation "distros" None None (Some distro_names);
   CRelationship 1 "SIM" None; CRelAdd 0 [s_ "D1"; s_ "D1"; s_ "D1"; s_ "D1"] [s_ "SIM_000"; s_ "SIM_001"; s_ "SIM_002"; s_ "SIM_003"];
   CAttribute 1 "SIMS_TO_RESTOCK" (Some (VValues [vz 0])) None None;
   CStory keep_order "distributor_restock" 1 "DISTRIBUTOR_ID" (0, 1) None 2 true;
   CPopulation "dealers" None None (Some dealer_names);
   CRelationship 2 "SIM" None; CRelAdd 1 [s_ "P"] [s_ "P1"]; CRelAdd 1 [s_ "broke"; s_ "broke"; s_ "broke"] [s_ "B0"; s_ "B1"; s_ "B2"];
   CRelationship 0 "SIM" None;
   CRelationship 0 "DEALERS" None; CRelAddWeighted 3 [s_ "A"; s_ "B"] [s_ "P"; s_ "Q"] (WScalar 1); CRelAddWeighted 3 agent_names [s_ "broke"; s_ "broke"; s_ "broke"] (WScalar 4);
   CRelationship 2 "DISTRIBUTOR" None; CRelAdd 4 dealer_names [s_ "D1"; s_ "D1"];
   CAttribute 2 "BULK_BUY_SIZE" (Some (VValues [vz 1; vz 2])) None None;
   CAttribute 0 "AGENT_NAME" (Some (VValues [s_ "Ann"; s_ "Bob"; s_ "Cid"])) None None;
   CStory keep_order "purchases" 0 "AGENT" (0, 1) (Some [("on_holiday"%string, (1, 1))]) 1 true;
   CStory keep_order "bulk_purchases" 2 "DEALER_ID" (0, 1) None 0 true;
   CStory keep_order "agent_start_holidays" 0 "AGENT" (0, 1) None 0 true;
   CStory keep_order "agent_stops_holidays" 0 "AGENT" (0, 1) None 3 false;
   CPopulation "rev" None (Some 0%Z) None;
   CAttribute 3 "DATE" None None None; CAttribute 3 "TEXT" None None None; CAttribute 3 "AGENT_ID" None None None; CAttribute 3 "AGENT_NAME" None None None;
   CStory keep_order "agent_reviews" 0 "AGENT" (0, 1) None 0 true;
   CSetOperations 0 (snd_restock shops); CSetOperations 1 (snd_purchases shops); CSetOperations 2 (snd_bulk_purchases shops);
   CSetOperations 3 (snd_start_holidays shops); CSetOperations 4 (snd_stops_holidays shops); CSetOperations 5 (snd_reviews shops)].
Definition snd_sample : world := calls people shop_calls.

Lemma snd_sample_built : built stream snd_sample.
Proof. unfold snd_sample, people. apply built_calls; [apply built_calls; [apply built_new|]|]; repeat constructor; intros l; apply Permutation_refl. Qed.

Lemma snd_sample_shape : snd_circus snd_sample shops distro_names dealer_names agent_names.
Proof.
  assert (L : length (w_stories snd_sample) = 6) by (vm_compute; reflexivity).
  assert (S : forall a, a < 6 -> nth_error (w_stories snd_sample) a = Some (story_of snd_sample a)) by (intros a H; apply story_of_is; rewrite L; exact H).
  constructor.
  - exact L.
  - exists (story_of snd_sample 0). split; [apply S; lia|]. split; [vm_compute; reflexivity|]. split; [vm_compute; reflexivity|]. exists 8. reflexivity.
  - exists (story_of snd_sample 1). split; [apply S; lia|]. split; [vm_compute; reflexivity|]. split; [vm_compute; reflexivity|]. exists 9. reflexivity.
  - exists (story_of snd_sample 2). split; [apply S; lia|]. split; [vm_compute; reflexivity|]. split; [vm_compute; reflexivity|]. exists 10. reflexivity.
  - exists (story_of snd_sample 3). split; [apply S; lia|]. split; [vm_compute; reflexivity|]. split; [vm_compute; reflexivity|]. exists 11. reflexivity.
  - exists (story_of snd_sample 4). split; [apply S; lia|]. split; [vm_compute; reflexivity|]. split; [vm_compute; reflexivity|]. exists 12. reflexivity.
  - exists (story_of snd_sample 5). split; [apply S; lia|]. split; [vm_compute; reflexivity|]. split; [vm_compute; reflexivity|]. exists 13. reflexivity.
  - split; [eexists; split; vm_compute; reflexivity|]. split; [eexists; split; vm_compute; reflexivity|]. split; [eexists; split; vm_compute; reflexivity|].
    assert (E : length (w_attrs snd_sample) = 7) by (vm_compute; reflexivity). intros x Hx. rewrite E. destruct Hx as [<-|[<-|[<-|[]]]]; cbn; lia.
  - apply nodupb_NoDup. reflexivity.
  - split; [apply Forall_forall; intros rel Hin; apply In_nth_error in Hin as [r Hr]; exact (built_reachable _ _ _ _ snd_sample_built Hr)|]. assert (E : length (w_rels snd_sample) = 5) by (vm_compute; reflexivity). intros r Hr.
    assert (Hl : r < length (w_rels snd_sample)) by (rewrite E; destruct Hr as [<-|[<-|[<-|[]]]]; cbn; lia). apply nth_error_Some in Hl.
    unfold related_to. destruct (nth_error (w_rels snd_sample) r) as [rel|]; [eauto|contradiction].
  - assert (G : nth_error (w_gens snd_sample) 3 = Some (GSeq 4 "SIM_" 3)) by (vm_compute; reflexivity).
    split; [|split].
    + assert (B : forallb (fun r => negb (mem VNA (map snd (pairs_of snd_sample r)))) [0; 1] = true) by (vm_compute; reflexivity). rewrite forallb_forall in B. intros r Hr K. specialize (B r Hr).
      apply mem_In in K. rewrite K in B. discriminate.
    + apply (sure_ids _ _ _ _ _ G).
    + intros K. inversion K; match goal with H : nth_error _ _ = _ |- _ => change (n_sim_ids shops) with 3 in H; rewrite G in H; discriminate H end.
Qed.

(** Six hours of it: the broke dealer sells three SIMs, then fails. *)
Example C141_example : snd_circus snd_sample shops distro_names dealer_names agent_names /\ (0 < Clock.c_step (w_clock snd_sample))%Z /\ startable disk logs_folder false /\
  ~ In (s_ "broke") dealer_names /\
  let r := run (6 * hour) logs_folder false snd_sample disk in
  let log := recorded (snd (fst (snd r))) logs_folder in
  let told (id : string) (names : list string) := map (fun r : record => map r names) (log id) in
  fst r = Ok tt /\
  map (fun r : record => map r ["AGENT"; "DEALER"; "SOLD_SIM"]%string) (successful (log "purchases"%string)) =
    [[s_ "B"; s_ "broke"; s_ "B2"]; [s_ "C"; s_ "broke"; s_ "B0"]; [s_ "C"; s_ "broke"; s_ "B1"]; [s_ "B"; s_ "Q"; s_ "SIM_002"]] /\
  length (log "purchases"%string) = 15 /\
  told "bulk_purchases"%string ["DEALER_ID"; "DISTRIBUTOR"; "NUMBER_OF_SIMS"]%string =
    [[s_ "P"; s_ "D1"; vz 1]; [s_ "Q"; s_ "D1"; vz 2]; [s_ "P"; s_ "D1"; vz 1]; [s_ "Q"; s_ "D1"; vz 2]] /\
  told "distributor_restock"%string ["DISTRIBUTOR_ID"; "SIMS_TO_RESTOCK"]%string = [[s_ "D1"; vz 3]] /\
  told "holidays"%string ["AGENT"; "STATES"]%string =
    [[s_ "A"; s_ "going"]; [s_ "B"; s_ "going"]; [s_ "C"; s_ "going"]; [s_ "A"; s_ "returning"]; [s_ "B"; s_ "returning"]; [s_ "C"; s_ "returning"];
     [s_ "A"; s_ "going"]; [s_ "B"; s_ "going"]; [s_ "C"; s_ "going"]] /\
  firstn 2 (told "reviews"%string ["AGENT"; "AGENT_NAME"; "REVIEW_ID"; "REVIEW_TEXT"]%string) =
    [[s_ "A"; s_ "Ann"; s_ "REVIEW_ID0"; s_ "Good."]; [s_ "B"; s_ "Bob"; s_ "REVIEW_ID1"; s_ "Good."]].
Proof.
  split; [exact snd_sample_shape|]. split; [vm_compute; reflexivity|]. split; [exact logging_startable|]. split; [cbn; clear; intuition discriminate|]. cbv zeta.
  split; [vm_compute; reflexivity|]. split; [vm_compute; reflexivity|]. split; [vm_compute; reflexivity|]. split; [vm_compute; reflexivity|]. split; [vm_compute; reflexivity|]. split; vm_compute; reflexivity.
Qed.

(** C142, the rest of what one would expect: that no SIM is ever held twice.  It is false: both dealers
    of the sample are given SIM_003, because bulk purchases from one distributor in one step give the same
    SIMs (finding 42). *)
Definition sims_held (w : world) (c : snd_names) : list val := flat_map (fun r => map snd (pairs_of w r)) [n_distro_sims c; n_dealer_sims c; n_agent_sims c].
Lemma new_sims k : (4 <= k)%Z -> ~ In (VStr ("SIM_" ++ zfill 3 (str_of_Z k))) [s_ "SIM_000"; s_ "SIM_001"; s_ "SIM_002"; s_ "SIM_003"; s_ "P1"; s_ "B0"; s_ "B1"; s_ "B2"].
Proof.
  intros Hk K. assert (N : forall j, (0 <= j < 4)%Z -> zfill 3 (str_of_Z j) <> zfill 3 (str_of_Z k)) by (intros j Hj E; apply UtilsFacts.zfill_str_inj in E; lia).
  destruct K as [K|[K|[K|[K|K]]]].
  - apply (N 0%Z ltac:(lia)). injection K as K. exact K.
  - apply (N 1%Z ltac:(lia)). injection K as K. exact K.
  - apply (N 2%Z ltac:(lia)). injection K as K. exact K.
  - apply (N 3%Z ltac:(lia)). injection K as K. exact K.
  - cbn [In append] in K. destruct K as [K|[K|[K|[K|[]]]]]; discriminate K.
Qed.
Theorem C142_held_once_refuted : exists w c distributors dealers agents duration folder fs w' fs' tr,
  built stream w /\ snd_circus w c distributors dealers agents /\ NoDup (sims_held w c) /\
  (forall k, (4 <= k)%Z -> ~ In (VStr ("SIM_" ++ zfill 3 (str_of_Z k))) (sims_held w c)) /\ nth_error (w_gens w) (n_sim_ids c) = Some (GSeq 4 "SIM_" 3) /\
  startable fs folder false /\ run duration folder false w fs = (Ok tt, (w', fs', tr)) /\
  exists sim, In (s_ "P", sim) (pairs_of w' (n_dealer_sims c)) /\ In (s_ "Q", sim) (pairs_of w' (n_dealer_sims c)).
Proof.
  assert (S : forall r : result unit * (world * node lines * list event), fst r = Ok tt -> r = (Ok tt, (fst (fst (snd r)), snd (fst (snd r)), snd (snd r)))) by (intros [r [[w' fs'] tr]]; cbn; intros ->; reflexivity).
  assert (R : fst (run (6 * hour) logs_folder false snd_sample disk) = Ok tt) by (vm_compute; reflexivity). apply S in R. clear S.
  assert (P : let l := pairs_of (fst (fst (snd (run (6 * hour) logs_folder false snd_sample disk)))) (n_dealer_sims shops) in
    existsb (fun kv => val_eqb (fst kv) (s_ "P") && val_eqb (snd kv) (s_ "SIM_003")) l && existsb (fun kv => val_eqb (fst kv) (s_ "Q") && val_eqb (snd kv) (s_ "SIM_003")) l = true) by (vm_compute; reflexivity).
  cbv zeta in P. apply andb_true_iff in P as [P Q].
  assert (X : forall k v l, existsb (fun kv => val_eqb (fst kv) k && val_eqb (snd kv) v) l = true -> In (k, v) l).
  { intros k v l H. apply existsb_exists in H as ([k' v'] & H & K). cbn [fst snd] in K. apply andb_true_iff in K as [K1 K2]. apply val_eqb_eq in K1. apply val_eqb_eq in K2. now subst. }
  apply X in P. apply X in Q. clear X.
  assert (H : sims_held snd_sample shops = [s_ "SIM_000"; s_ "SIM_001"; s_ "SIM_002"; s_ "SIM_003"; s_ "P1"; s_ "B0"; s_ "B1"; s_ "B2"]) by (vm_compute; reflexivity).
  assert (G : nth_error (w_gens snd_sample) (n_sim_ids shops) = Some (GSeq 4 "SIM_" 3)) by (vm_compute; reflexivity).
  revert R P Q. generalize (run (6 * hour) logs_folder false snd_sample disk) at 2 3 4 5 6. intros r R P Q.
  exists snd_sample, shops, distro_names, dealer_names, agent_names, (6 * hour)%Z, logs_folder, disk, (fst (fst (snd r))), (snd (fst (snd r))), (snd (snd r)).
  split; [exact snd_sample_built|]. split; [exact snd_sample_shape|]. rewrite H.
  split; [apply nodupb_NoDup; reflexivity|]. split; [exact new_sims|]. split; [exact G|]. split; [exact logging_startable|]. split; [exact R|].
  exists (s_ "SIM_003"). split; [exact P|exact Q].
Qed.
Print Assumptions C142_held_once_refuted.
