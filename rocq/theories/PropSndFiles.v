(** The scenario of tests/scenarios/test_snd.py from its seed to its files (C157). *)
From Verif Require Import Base BaseFacts Rng RngFacts Utils Relationship SpecRelationship Frame Gens GensProps Clock SpecClock ClockProps Attribute SpecAttribute World Story Ops Circus Fs
  SpecStory SpecOps SpecWorld SpecPopulation SpecCircus SpecLocal SpecSupply SpecFs SpecLedger SpecRecords SpecSafe Geography SpecNumbers CdrSetup SpecCdrSetup SpecCdrLogs SpecCdrMoves Samples StorySamples PropCircus
  PropCdrSetup Snd SpecSnd SpecSndReady SpecArchive SpecSndReviews SpecSndRestock SndReviews SndSetup SpecSndSetup SndReady GensKept RecordsProps CdrBooks NowProps SndBooks RecordsMore SndTruth PropSnd PropSndSafe PropSndReviews PropSndRestock PropSndBuild.
From Coq Require Import Permutation Sorted.
Local Open Scope nat_scope.

(** ** C157.  At the end of the simulation the agents own exactly the SIMs that the files tell were sold to them. *)
Theorem C157_sims_sold x params g seed start step duration folder del fs c w w' fs' :
  snd_simulated x params g seed start step duration folder del fs c w w' fs' ->
  Permutation (pairs_of w' (n_agent_sims c)) (map (fun r : record => (r "AGENT", r "SOLD_SIM")%string) (successful (recorded fs' folder "purchases"))).
Proof.
  intros (S & Hs & St & B & tr & Hr). destruct (built_snd _ _ _ _ _ _ _ _ S B) as ((ds & de & ag & C & T & R & _) & Ed & Est).
  destruct (C142_stocks_from_the_files w c ds de ag duration folder del fs w' fs' tr C ltac:(rewrite Est; unfold second in Hs; lia) St Hr) as (K & _).
  rewrite (chain_agent_sims _ _ _ _ _ _ T) in K. exact K.
Qed.
Print Assumptions C157_sims_sold.

(** What a distributor still has to restock is what dealers bought from it, minus what it restocked, according to the
    files. *)
Theorem C157_to_restock x params g seed start step duration folder del fs c w w' fs' :
  snd_simulated x params g seed start step duration folder del fs c w w' fs' ->
  forall k, member w (n_distros c) k ->
  holds w' (n_to_restock c) k (VNum (bought_from k (recorded fs' folder "bulk_purchases") - restocked k (recorded fs' folder "distributor_restock"))%Qc).
Proof.
  intros (S & Hs & St & B & tr & Hr) k (po & Ep & Hk). destruct (built_snd _ _ _ _ _ _ _ _ S B) as ((ds & de & ag & C & T & R & _) & Ed & Est). rewrite Est in R.
  destruct (chain_distros _ _ _ _ _ _ T) as ((_ & _ & po' & Ep' & Ei) & Ser). rewrite Ep in Ep'. injection Ep' as <-. rewrite Ei in Hk.
  pose proof (proj2 (chain_to_restock _ _ _ _ _ _ T k Hk (vz 0)) eq_refl) as H0. unfold vz in H0.
  assert (Nk : k <> VNA) by (apply Ser in Hk as (z & _ & ->); discriminate).
  pose proof (C147_counter_from_the_files w c ds de ag duration folder del fs w' fs' tr k _ C (R Hs) St Hr Nk H0) as K.
  replace (Q2Qc (inject_Z 0) + bought_from k (recorded fs' folder "bulk_purchases") - restocked k (recorded fs' folder "distributor_restock"))%Qc
    with (bought_from k (recorded fs' folder "bulk_purchases") - restocked k (recorded fs' folder "distributor_restock"))%Qc in K by (change (Q2Qc (inject_Z 0)) with (0%Qc); ring). exact K.
Qed.
Print Assumptions C157_to_restock.

(** The reviews are those of the files, numbered consecutively, and their attributes are what the files tell. *)
Theorem C157_reviews x params g seed start step duration folder del fs c w w' fs' :
  snd_simulated x params g seed start step duration folder del fs c w w' fs' ->
  let rs := recorded fs' folder "reviews" in
  map (fun r : record => r "REVIEW_ID"%string) rs = ids_from 0 "REVIEW_ID" 10 (length rs) /\
  (forall i, member w' (n_reviews c) i <-> exists r : record, In r rs /\ r "REVIEW_ID"%string = i) /\
  forall r : record, In r rs -> forall name column a, In (name, column) review_columns -> attribute_at w (n_reviews c) name a -> holds w' a (r "REVIEW_ID"%string) (r column).
Proof.
  intros (S & Hs & St & B & tr & Hr). destruct (built_snd _ _ _ _ _ _ _ _ S B) as ((ds & de & ag & C & T & R & V & I) & Ed & Est).
  destruct (run_recorded _ _ _ _ _ _ _ _ Hr St ltac:(rewrite Est; unfold second in Hs; lia)) as (n & L & _ & He & Er). cbv zeta.
  rewrite (Er _ _ (snd_header _ _ _ _ _ C "reviews" a_review ltac:(cbn; tauto))).
  destruct (C151_records_are_numbered _ _ _ _ _ _ _ _ _ (reviews_numbered _ _ _ _ _ _ _ _ C I) He) as (N & _ & _). cbn [log_of who] in N.
  split; [exact N|]. split.
  - intros i. destruct (C150_reviews_from_the_records _ _ _ _ _ _ _ _ C V He) as [M _]. rewrite M. split; [|auto]. intros [(po & Ep & Hi)|H]; [|exact H].
    destruct (chain_reviews _ _ _ _ _ _ T) as (_ & _ & po' & Ep' & Ei). rewrite Ep in Ep'. injection Ep' as <-. rewrite Ei in Hi. destruct Hi.
  - intros r Hin. exact (proj2 (C150_no_review_is_lost w c ds de ag 0%Z "REVIEW_ID" 10 _ L w' C V I He r Hin)).
Qed.
Print Assumptions C157_reviews.

(** What the five logs tell was true when it was logged. *)
Theorem C157_lines_true x params g seed start step duration folder del fs c w w' fs' :
  snd_simulated x params g seed start step duration folder del fs c w w' fs' ->
  exists n, covers step duration n /\
  forall id tells, In (id, tells) snd_logs -> exists pasts, Forall2 (was_true tells w c (steps_of 6 n)) pasts (recorded fs' folder id) /\ StronglySorted earlier pasts.
Proof.
  intros (S & Hs & St & B & tr & Hr). destruct (built_snd _ _ _ _ _ _ _ _ S B) as ((ds & de & ag & C & _) & Ed & Est).
  pose proof (C141_lines_true w c ds de ag duration folder del fs w' fs' tr C ltac:(rewrite Est; unfold second in Hs; lia) St Hr) as K. rewrite Est in K. exact K.
Qed.
Print Assumptions C157_lines_true.

(** The log "holidays" tells "going" of agents whose turn it was to go, "returning" of agents whose turn it was to
    return. *)
Theorem C157_holidays x params g seed start step duration folder del fs c w w' fs' :
  snd_simulated x params g seed start step duration folder del fs c w w' fs' ->
  exists n, covers step duration n /\
  forall r : record, In r (recorded fs' folder "holidays") -> exists past a future L1 w1, steps_of 6 n = past ++ HExec a :: future /\ emits w past L1 w1 /\
    (acts_now w1 start_holidays (r "AGENT"%string) /\ r "STATES"%string = VStr "going" \/ acts_now w1 stops_holidays (r "AGENT"%string) /\ r "STATES"%string = VStr "returning").
Proof.
  intros H. destruct (C157_lines_true _ _ _ _ _ _ _ _ _ _ _ _ _ _ H) as (n & Hn & A). exists n. split; [exact Hn|]. intros r Hin.
  destruct H as (S & Hs & St & B & tr & Hr). destruct (built_snd _ _ _ _ _ _ _ _ S B) as ((ds & de & ag & C & T & R & _) & Ed & Est). rewrite Est in R.
  destruct (A "holidays"%string a_holiday ltac:(cbn; tauto)) as (pasts & F & _).
  assert (X : forall ps rs, Forall2 (was_true a_holiday w c (steps_of 6 n)) ps rs -> In r rs -> exists past, was_true a_holiday w c (steps_of 6 n) past r).
  { induction 1 as [|p q ps rs Hp Hf IH]; intros Hi; [destruct Hi|]. destruct Hi as [<-|Hi]; [eauto|exact (IH Hi)]. }
  destruct (X _ _ F Hin) as (past & a & future & L1 & w1 & E1 & E2 & Hd & _). exists past, a, future, L1, w1. split; [exact E1|]. split; [exact E2|].
  pose proof (sc_gens _ _ (emits_since _ _ _ _ _ (start_since _ _ _ _ _ C) E2)) as K.
  destruct (ready_made _ _ _ _ _ (R Hs)) as (_ & _ & Ng & Nr). destruct (chain_states _ _ _ _ _ _ T) as [Wg Wr].
  destruct Hd as [[D1 D2]|[D1 D2]]; [left|right]; (split; [exact D1|]).
  - apply Wg. exact (can_give_kept _ _ _ K Ng _ D2).
  - apply Wr. exact (can_give_kept _ _ _ K Nr _ D2).
Qed.
Print Assumptions C157_holidays.

(** Such simulations exist for all seeds and durations. *)
Theorem C157_simulations_succeed x params g seed start step duration folder del fs :
  sane_snd_sources x -> feasible x params -> (second <= step)%Z -> (step | hour)%Z -> (step | start)%Z -> startable fs folder del ->
  exists c w w' fs', snd_simulated x params g seed start step duration folder del fs c w w' fs'.
Proof.
  intros S F H1 H2 H3 St. destruct (C156_succeeds x params g seed start step S F ltac:(unfold second in H1; lia) H2 H3) as (c & w & E).
  destruct (C156_run_completes _ _ _ _ _ _ _ _ duration folder del fs S E H1 St) as (w' & fs' & tr & Hr). exists c, w, w', fs'. unfold snd_simulated. eauto 10.
Qed.
Print Assumptions C157_simulations_succeed.

(** Twelve agents, one dealer and the broke one, for two hours: the sizes of the logs, and the SIMs of the agents. *)
Definition snd_sizes (duration : Z) (folder : path) (r : result snd_names * world) (fs : node lines) : option (list nat * nat) :=
  match r with
  | (Ok c, w) => match run duration folder false w fs with
                 | (Ok _, (w', fs', _)) => Some (map (fun id => length (recorded fs' folder id)) ["purchases"; "bulk_purchases"; "distributor_restock"; "holidays"; "reviews"]%string, length (pairs_of w' (n_agent_sims c)))
                 | _ => None
                 end
  | _ => None
  end.
Definition crowd : snd_params := mkSndParams 12 1 1 20 3 4.
Lemma crowd_feasible : feasible sample_snd_sources crowd.
Proof.
  repeat (split; [reflexivity|]). split; [discriminate|]. cbv zeta. intros s. apply complete_sound; cbn; lia.
Qed.
Example C157_example :
  (exists c w w' fs', snd_simulated sample_snd_sources crowd stream 6 monday hour (2 * hour) logs_folder false disk c w w' fs') /\
  snd_sizes (2 * hour) logs_folder (build_snd sample_snd_sources crowd (new_circus stream 6 monday hour)) disk = Some ([1; 0; 0; 0; 1], 1).
Proof.
  split; [|vm_compute; reflexivity].
  apply C157_simulations_succeed; [exact sample_snd_sane|exact crowd_feasible|discriminate|apply Z.divide_refl|exists 406992%Z; reflexivity|exact logging_startable].
Qed.
