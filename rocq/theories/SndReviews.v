(** The population of the reviews of tests/scenarios/test_snd.py. *)
From Verif Require Import Base BaseFacts Rng Utils UtilsFacts Relationship RelationshipFacts SpecRelationship Frame Gens Clock SpecClock Attribute SpecAttribute AttributeFacts World Story Ops OpsFacts Helpers
  Circus SpecStory StoryFacts StoryExec SpecOps OpsProps OpsColumns OpsMore SpecCircus SpecPopulation SpecLocal LocalFacts SpecSupply SpecLedger LedgerProps SpecRecords RecordsProps SpecNow NowProps SpecJournal
  JournalProps RowsProps SpecSafe SafeOps SafeRun SpecCdr Snd SpecSnd SndTruth SpecSndReady SndRestock SpecCdrMoves SpecArchive ArchiveProps SpecNumbers NumbersProps SpecSndReviews.

Lemma spares_population w p o : match o with OpPopUpdate _ _ _ | OpChain _ => false | _ => true end = true -> ~ changes w o (OPopulation p).
Proof.
  intros H C. assert (G : forall g, ~ generator_of w g (OPopulation p)) by (intros g (j & K & _); discriminate).
  destruct o; cbn [changes] in *; try discriminate; try contradiction.
  all: try (match type of C with _ /\ _ => destruct C as [_ C]; discriminate end).
  all: try exact (G _ C).
  all: try (destruct C as [C|(e & _ & C)]; [discriminate|exact (G _ C)]).
  all: try (destruct C as [C|C]; [discriminate|exact (G _ C)]).
  all: destruct C as [C|(s & _ & C)]; discriminate.
Qed.

Section Reviews.
  Context (w0 : world) (c : snd_names) (distributors dealers agents : list val).
  Hypothesis F : snd_circus w0 c distributors dealers agents.
  Context (name column : string) (x : nat).
  Hypothesis Hc : In (name, column) review_columns.
  Hypothesis Hx : attribute_at w0 (n_reviews c) name x.
  Hypothesis Sv : single_valued w0 x.
  Hypothesis Own : own_attributes w0 (n_reviews c).
  Hypothesis Nx : x <> n_to_restock c.

  Definition reviewing : book := Book "reviews" "REVIEW_ID" column.

  Lemma review_apart o ops : In o [OPopulation (n_reviews c); OAttribute x] -> forallb (fun o => leaves x o && mute "reviews" o) ops = true -> Forall (apart w0 o [reviewing]) ops.
  Proof.
    intros Ho H. apply Forall_forall. intros y Hy. rewrite forallb_forall in H. specialize (H y Hy). apply andb_true_iff in H as [H1 H2]. split.
    - destruct Ho as [<-|[<-|[]]]; [apply spares_population; destruct y; try reflexivity; discriminate|now apply leaves_changes].
    - intros b cols ex [<-|[]]. now apply mute_quiet.
  Qed.
  Lemma other_counter : Nat.eqb (n_to_restock c) x = false.
  Proof. apply Nat.eqb_neq. congruence. Qed.

  Lemma reviews_archive : archive_of w0 (n_reviews c) name x reviewing.
  Proof.
    split; [exact Hx|]. split; [exact Sv|]. split; [exact Own|]. intros a s o Es Ho. destruct (stories_of _ _ _ _ _ F a s Es) as (Hf & judge & Eo).
    assert (L : a < 6) by (rewrite <- (snd_six _ _ _ _ _ F); apply nth_error_Some; congruence). pose proof other_counter as Nc.
    destruct (Nat.eq_dec a 5) as [->|Na].
    2: { apply nothing_to_enter. rewrite Eo. apply review_apart; [exact Ho|]. destruct a as [|[|[|[|[|[|a]]]]]]; try lia; cbn -[Nat.eqb]; rewrite ?Nc; reflexivity. }
    assert (Ef : st_field s = "AGENT"%string) by (destruct Hf as [Hf|[Hf|[Hf|[Hf|[Hf|[Hf|[]]]]]]]; [discriminate..|now injection Hf]). cbn [nth] in Eo.
    assert (Ic : In column ["AGENT"; "DATETIME"; "AGENT_NAME"; "REVIEW_ID"; "REVIEW_TEXT"]%string) by (destruct Hc as [E|[E|[E|[E|[]]]]]; injection E as _ <-; cbn; tauto).
    assert (D : dget name review_columns = Some column) by (destruct Hc as [E|[E|[E|[E|[]]]]]; injection E as <- <-; reflexivity).
    apply (one_to_enter _ _ _ _ s (firstn 4 (snd_reviews c)) (OpPopUpdate (n_reviews c) "REVIEW_ID" review_columns) [] (OpFieldLogger "reviews" [] []) [OpBack 5 judge] reviewing
      ["AGENT"; "DATETIME"; "AGENT_NAME"; "REVIEW_ID"; "REVIEW_TEXT"]%string [] ["AGENT"; "DATETIME"; "AGENT_NAME"; "REVIEW_ID"; "REVIEW_TEXT"]%string).
    - exact Eo.
    - apply review_apart; [exact Ho|]. reflexivity.
    - rewrite Ef. cbn [firstn snd_reviews].
      apply (widen_any _ _ _ ["DATETIME"%string]); [reflexivity|reflexivity|now left|cbn [app]]. apply (widen_any _ _ _ ["AGENT_NAME"%string]); [reflexivity|reflexivity|now left|cbn [app]].
      apply (widen_any _ _ _ ["REVIEW_ID"%string]); [reflexivity|reflexivity|now left|cbn [app]]. apply (widen_any _ _ _ ["REVIEW_TEXT"%string]); [reflexivity|reflexivity|now left|cbn [app]]. constructor.
    - apply (a_saving (n_reviews c) name reviewing review_columns). exact D.
    - now left.
    - intros n [].
    - cbn. tauto.
    - exact Ic.
    - constructor.
    - exists []. split; [reflexivity|]. now left.
  Qed.
End Reviews.

Lemma reviews_known w c distributors dealers agents hs L w' : snd_circus w c distributors dealers agents -> reviews_kept w c -> emits w hs L w' ->
  reviews_told w c (records "reviews" L) w'.
Proof.
  intros F [Own K] H.
  assert (A : forall name column x, In (name, column) review_columns -> attribute_at w (n_reviews c) name x -> archive_of w (n_reviews c) name x (reviewing column)).
  { intros name column x Hc Hx. destruct (K name column Hc) as (y & Hy & Sv & Ny). assert (y = x).
    { destruct Hx as (po & Hp & Ex), Hy as (po' & Hp' & Ey). congruence. }
    subst y. exact (reviews_archive w c _ _ _ F name column x Hc Hx Sv Own Ny). }
  split.
  - destruct (K "DATE"%string "DATETIME"%string (or_introl eq_refl)) as (x & Hx & _). exact (proj1 (archive_tells _ _ _ _ _ _ _ _ (A _ _ _ (or_introl eq_refl) Hx) H)).
  - intros name column x Hc Hx. exact (proj2 (proj2 (archive_tells _ _ _ _ _ _ _ _ (A _ _ _ Hc Hx) H))).
Qed.

(** The records of the reviews are numbered. *)
Lemma reviews_numbered w c distributors dealers agents start prefix width : snd_circus w c distributors dealers agents -> ids_reserved w c start prefix width ->
  numbered_by w (n_review_ids c) (Book "reviews" "REVIEW_ID" "REVIEW_ID") start prefix width.
Proof.
  intros F [Hg Res]. split; [exact Hg|]. intros a s Es. destruct (stories_of _ _ _ _ _ F a s Es) as (Hf & judge & Eo).
  assert (L : a < 6) by (rewrite <- (snd_six _ _ _ _ _ F); apply nth_error_Some; congruence).
  assert (Ap : forall o, In o (st_ops s) -> o <> OpGenerate (n_review_ids c) "REVIEW_ID" None -> mute "reviews" o = true -> apart w (OGenerator (n_review_ids c)) [Book "reviews" "REVIEW_ID" "REVIEW_ID"] o).
  { intros o Ho No M. split; [intros C; exact (No (Res a s o Es Ho C))|]. intros b cols ex [<-|[]]. now apply mute_quiet. }
  destruct (Nat.eq_dec a 5) as [->|Na].
  2: { apply nothing_to_enter. apply Forall_forall. intros o Ho. apply Ap; [exact Ho| |].
       - intros ->. rewrite Eo in Ho. clear - Ho L Na. destruct a as [|[|[|[|[|[|a]]]]]]; try lia; cbn in Ho; intuition discriminate.
       - rewrite Eo in Ho. assert (B : forallb (mute "reviews") (nth a [snd_restock c; snd_purchases c; snd_bulk_purchases c; snd_start_holidays c; snd_stops_holidays c; snd_reviews c] [] ++ [OpBack a judge]) = true)
           by (destruct a as [|[|[|[|[|[|a]]]]]]; try lia; reflexivity).
         rewrite forallb_forall in B. auto. }
  assert (Ef : st_field s = "AGENT"%string) by (destruct Hf as [Hf|[Hf|[Hf|[Hf|[Hf|[Hf|[]]]]]]]; [discriminate..|now injection Hf]). cbn [nth] in Eo.
  apply (one_to_enter _ _ _ _ s (firstn 2 (snd_reviews c)) (OpGenerate (n_review_ids c) "REVIEW_ID" None)
    [OpGenerate (n_texts c) "REVIEW_TEXT" None; OpPopUpdate (n_reviews c) "REVIEW_ID" review_columns] (OpFieldLogger "reviews" [] []) [OpBack 5 judge] (Book "reviews" "REVIEW_ID" "REVIEW_ID")
    ["AGENT"; "DATETIME"; "AGENT_NAME"]%string ["REVIEW_ID"%string] ["AGENT"; "DATETIME"; "AGENT_NAME"; "REVIEW_ID"; "REVIEW_TEXT"]%string).
  - exact Eo.
  - apply Forall_forall. intros o Ho. apply Ap.
    + rewrite Eo. clear - Ho. cbn in *. tauto.
    + intros ->. clear - Ho. cbn in Ho. intuition discriminate.
    + clear - Ho. cbn in Ho. intuition (subst; reflexivity).
  - rewrite Ef. cbn [firstn snd_reviews].
    apply (widen_any _ _ _ ["DATETIME"%string]); [reflexivity|reflexivity|now left|cbn [app]]. apply (widen_any _ _ _ ["AGENT_NAME"%string]); [reflexivity|reflexivity|now left|cbn [app]]. constructor.
  - apply (a_numbering (n_review_ids c) (Book "reviews" "REVIEW_ID" "REVIEW_ID")).
  - now left.
  - intros n [<-|[]] K. clear - K. cbn in K. intuition discriminate.
  - cbn. tauto.
  - cbn. tauto.
  - cbn [app]. apply (widen_any _ _ _ ["REVIEW_TEXT"%string]); [reflexivity|reflexivity|now right|cbn [app]]. apply (widen_any _ _ _ (@nil string)); [reflexivity|reflexivity|now right|cbn [app]]. constructor.
  - exists []. split; [reflexivity|]. now left.
Qed.
