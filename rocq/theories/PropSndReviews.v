(** The population of the reviews of tests/scenarios/test_snd.py (C150), and records numbered by a
    sequential generator (C151). *)
From Verif Require Import Base BaseFacts Rng Utils Relationship RelationshipFacts SpecRelationship Frame Gens Clock SpecClock Attribute SpecAttribute AttributeFacts World Story Ops Helpers
  Fs Circus SpecStory SpecOps SpecCircus SpecWorld WorldProps SpecPopulation GensKept PopProps SpecLocal CircusProps SpecSupply SpecFs SpecLedger SpecRecords RecordsGens RecordsProps RecordsMore
  SpecNow NowProps SpecSafe SafeRun Samples StorySamples PropStory PropCircus PropRecords PropOps PropSafe Cdr SpecCdr PropCdr SpecCdrLogs Snd SpecSnd SpecSndReady SndBooks SndTruth PopFacts
  PropSnd PropSndSafe SpecCdrMoves SpecArchive ArchiveProps SpecNumbers NumbersProps SpecSndReviews SndReviews.

(** ** C150.  A population that stories only write to by saving the rows they log has the members it had and those
    logged, and they have the values of their last records. *)
Theorem C150_archive_keeps_the_log w p name x b hs L w' : archive_of w p name x b -> emits w hs L w' ->
  (forall i, member w' p i <-> member w p i \/ exists r : record, In r (records (log_of b) L) /\ r (who b) = i) /\
  single_valued w' x /\
  forall k v, holds w' x k v <-> last_shows (who b) (what b) k v (records (log_of b) L) \/ nothing_about (who b) k (records (log_of b) L) /\ holds w x k v.
Proof. exact (archive_tells w p name x b hs L w'). Qed.
Print Assumptions C150_archive_keeps_the_log.

(** So do the reviews of the scenario. *)
Theorem C150_reviews_from_the_records w c distributors dealers agents hs L w' :
  snd_circus w c distributors dealers agents -> reviews_kept w c -> emits w hs L w' -> reviews_told w c (records "reviews" L) w'.
Proof. exact (reviews_known w c distributors dealers agents hs L w'). Qed.
Print Assumptions C150_reviews_from_the_records.

Theorem C150_reviews_from_the_files w c distributors dealers agents duration folder del fs w' fs' tr :
  snd_circus w c distributors dealers agents -> reviews_kept w c -> (0 < Clock.c_step (w_clock w))%Z -> startable fs folder del ->
  run duration folder del w fs = (Ok tt, (w', fs', tr)) -> reviews_told w c (recorded fs' folder "reviews") w'.
Proof.
  intros F K Hc St H. destruct (run_recorded _ _ _ _ _ _ _ _ H St Hc) as (n & L & _ & He & Er).
  rewrite (Er _ _ (snd_header _ _ _ _ _ F "reviews" a_review ltac:(cbn; tauto))). exact (C150_reviews_from_the_records _ _ _ _ _ _ _ _ F K He).
Qed.
Print Assumptions C150_reviews_from_the_files.

(** ** C151.  When stories draw from a sequential generator only to number the records of a log, these are numbered
    consecutively, whatever the stories that write them and the order in which they are executed. *)
Theorem C151_records_are_numbered w g b start prefix width hs L w' : numbered_by w g b start prefix width -> emits w hs L w' ->
  let rs := records (log_of b) L in
  map (fun r : record => r (who b)) rs = ids_from start prefix width (length rs) /\ NoDup (map (fun r : record => r (who b)) rs) /\
  nth_error (w_gens w') g = Some (GSeq (start + Z.of_nat (length rs)) prefix width).
Proof.
  intros K H. destruct (numbered_records w g b start prefix width hs L w' K H) as [E1 E2]. cbv zeta in *. split; [exact E1|]. split; [|exact E2]. rewrite E1. apply ids_from_NoDup.
Qed.
Print Assumptions C151_records_are_numbered.

Theorem C151_lines_are_numbered w g b start prefix width cols duration folder del fs w' fs' tr :
  numbered_by w g b start prefix width -> one_header w (log_of b) cols -> (0 < Clock.c_step (w_clock w))%Z -> startable fs folder del ->
  run duration folder del w fs = (Ok tt, (w', fs', tr)) ->
  let rs := recorded fs' folder (log_of b) in
  map (fun r : record => r (who b)) rs = ids_from start prefix width (length rs) /\ NoDup (map (fun r : record => r (who b)) rs) /\
  nth_error (w_gens w') g = Some (GSeq (start + Z.of_nat (length rs)) prefix width).
Proof.
  intros K Hh Hc St H. destruct (run_recorded _ _ _ _ _ _ _ _ H St Hc) as (n & L & _ & He & Er). cbv zeta. rewrite (Er _ _ Hh). exact (C151_records_are_numbered _ _ _ _ _ _ _ _ _ K He).
Qed.
Print Assumptions C151_lines_are_numbered.

(** So are the reviews; hence none is lost. *)
Theorem C150_no_review_is_lost w c distributors dealers agents start prefix width hs L w' :
  snd_circus w c distributors dealers agents -> reviews_kept w c -> ids_reserved w c start prefix width -> emits w hs L w' ->
  forall r : record, In r (records "reviews" L) -> member w' (n_reviews c) (r "REVIEW_ID"%string) /\
  forall name column x, In (name, column) review_columns -> attribute_at w (n_reviews c) name x -> holds w' x (r "REVIEW_ID"%string) (r column).
Proof.
  intros F K Res H r Hr. destruct (reviews_known _ _ _ _ _ _ _ _ F K H) as [M V].
  destruct (C151_records_are_numbered _ _ _ _ _ _ _ _ _ (reviews_numbered _ _ _ _ _ _ _ _ F Res) H) as (_ & N & _). cbn [log_of who] in N.
  split; [apply M; right; eauto|]. intros name column x Hc Hx. apply (V name column x Hc Hx). left.
  apply in_split in Hr as (before & afterwards & E). rewrite E in *. exists before, r, afterwards. repeat split; auto. intros r' Hr' E'.
  rewrite map_app in N. cbn in N. apply NoDup_remove_2 in N. apply N, in_or_app. right. rewrite <- E'. now apply (in_map (fun r : record => r "REVIEW_ID"%string)).
Qed.
Print Assumptions C150_no_review_is_lost.

(** The sample of C141, for six hours. *)
Lemma snd_sample_reviews : reviews_kept snd_sample shops.
Proof.
  destruct (ready_reviews _ _ _ _ _ snd_sample_ready) as (po & Hp & _ & Sv). split.
  - intros n m x (po1 & H1 & E1) (po2 & H2 & E2). destruct (built_own _ _ snd_sample_built) as (_ & _ & O3 & _). exact (proj2 (O3 _ _ _ _ _ _ _ H1 H2 E1 E2)).
  - assert (Po : match nth_error (w_pops snd_sample) 3 with Some po => p_attrs po = [("DATE", 3); ("TEXT", 4); ("AGENT_ID", 5); ("AGENT_NAME", 6)]%string | None => False end) by (vm_compute; reflexivity).
    change (n_reviews shops) with 3 in *. revert Po Hp Sv. generalize snd_sample as w. intros w Po Hp Sv. rewrite Hp in Po. rewrite Po in Sv.
    intros name column [E|[E|[E|[E|[]]]]]; injection E as <- <-; eexists; (split; [exists po; split; [exact Hp|rewrite Po; reflexivity]|]); (edestruct Sv as (S1 & S2 & _); [|split; [exact S1|exact S2]]); cbn; eauto.
Qed.
Lemma snd_sample_ids : ids_reserved snd_sample shops 0 "REVIEW_ID" 1.
Proof.
  split; [vm_compute; reflexivity|].
  assert (G : forall g, ~ generator_of snd_sample g (OGenerator 4) \/ g = 4).
  { assert (E : forallb (fun x => match x with GMap _ _ | GBulk _ _ => false | _ => true end) (w_gens snd_sample) = true) by (vm_compute; reflexivity).
    revert E. generalize snd_sample as w. intros w E g. rewrite forallb_forall in E. destruct (Nat.eq_dec g 4) as [->|N]; [now right|left]. intros (j & [= <-] & B).
    inversion B; subst; [contradiction|..]; match goal with H : nth_error _ _ = Some _ |- _ => apply nth_error_In, E in H; discriminate end. }
  assert (K : forallb (fun s => forallb (fun o => match o with OpGenerate g n q => negb (Nat.eqb g 4) || String.eqb n "REVIEW_ID" && match q with None => true | _ => false end
    | OpGenerateDep _ _ _ | OpChain _ => false | OpBack _ g => negb (Nat.eqb g 4) | _ => true end) (st_ops s)) (w_stories snd_sample) = true) by (vm_compute; reflexivity).
  change (n_review_ids shops) with 4. revert G K. generalize snd_sample as w. intros w G K a s o Es Ho C. rewrite forallb_forall in K. specialize (K s (nth_error_In _ _ Es)). rewrite forallb_forall in K. specialize (K o Ho).
  destruct o; cbn [changes] in C; cbn in K; try discriminate; try contradiction; try (destruct C as [C|(? & _ & C)]; discriminate).
  - destruct C as [_ C]; discriminate.
  - destruct (G generator) as [N|E]; [contradiction|]. subst. cbn in K. apply andb_true_iff in K as [K1 K2]. apply String.eqb_eq in K1. subst.
    destruct quantity; [discriminate|reflexivity].
  - destruct C as [C|C]; [discriminate|]. destruct C as (? & ? & ? & _ & _ & C). discriminate.
  - destruct C as [C|C]; [discriminate|]. destruct (G judge) as [N|E]; [contradiction|]. subst. discriminate.
Qed.
Example C150_example : snd_circus snd_sample shops distro_names dealer_names agent_names /\ reviews_kept snd_sample shops /\ ids_reserved snd_sample shops 0 "REVIEW_ID" 1 /\
  (0 < Clock.c_step (w_clock snd_sample))%Z /\ startable disk logs_folder false /\
  let r := run (6 * hour) logs_folder false snd_sample disk in
  let log := recorded (snd (fst (snd r))) logs_folder "reviews" in
  fst r = Ok tt /\
  map (fun r : record => map r ["AGENT"; "AGENT_NAME"; "REVIEW_ID"; "REVIEW_TEXT"]%string) log =
    [[VStr "A"; VStr "Ann"; VStr "REVIEW_ID0"; VStr "Good."]; [VStr "B"; VStr "Bob"; VStr "REVIEW_ID1"; VStr "Good."];
     [VStr "C"; VStr "Cid"; VStr "REVIEW_ID2"; VStr "Good."]; [VStr "A"; VStr "Ann"; VStr "REVIEW_ID3"; VStr "Good."];
     [VStr "B"; VStr "Bob"; VStr "REVIEW_ID4"; VStr "Good."]; [VStr "C"; VStr "Cid"; VStr "REVIEW_ID5"; VStr "Good."]]%string /\
  nth_error (w_attrs (fst (fst (snd r)))) 6 =
    Some [(VStr "REVIEW_ID0", VStr "Ann"); (VStr "REVIEW_ID1", VStr "Bob"); (VStr "REVIEW_ID2", VStr "Cid");
          (VStr "REVIEW_ID3", VStr "Ann"); (VStr "REVIEW_ID4", VStr "Bob"); (VStr "REVIEW_ID5", VStr "Cid")]%string.
Proof.
  split; [exact snd_sample_shape|]. split; [exact snd_sample_reviews|]. split; [exact snd_sample_ids|]. split; [vm_compute; reflexivity|]. split; [exact logging_startable|]. cbv zeta.
  split; [vm_compute; reflexivity|]. split; vm_compute; reflexivity.
Qed.
