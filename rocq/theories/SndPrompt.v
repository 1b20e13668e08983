(** In tests/scenarios/test_snd.py, distributors restock after dealers bought from them, and only then. *)
From Verif Require CircusFacts.
From Verif Require Import Base BaseFacts Rng Utils UtilsFacts Relationship RelationshipFacts SpecRelationship Frame Gens Clock SpecClock Attribute SpecAttribute AttributeFacts World Story Ops OpsFacts Helpers
  Circus SpecStory StoryFacts StoryProps StoryExec SpecOps OpsProps OpsColumns OpsMore StoryMore StoryWorld StoryWorld2 SpecCircus SpecPopulation SpecLocal LocalFacts SpecSupply SpecLedger LedgerProps SpecRecords RecordsProps SpecNow NowProps SpecJournal
  RowsProps SpecSafe GensKept GensProps RecordsGens SafeGens SafeOps SafeRun GeographyLog Geography Cdr SpecCdr CdrFacts SpecCdrLogs CdrLogs CdrBooks OpRows Snd SpecSnd SpecSndReady WorldProps CdrProps SupplyFacts SndBooks SndTruth SndSafe SupplyProps StoryForce SpecSndRestock
  SndRestock SpecPrompt PromptProps CdrPrompt.

(** The execution that wrote a record. *)
Lemma written_by id r hs : forall w L w', emits w hs L w' -> In r (records id L) ->
  exists h1 a h2 L1 w1 l w2 L2, hs = h1 ++ HExec a :: h2 /\ emits w h1 L1 w1 /\ execute a w1 = (Ok l, w2) /\ emits w2 h2 L2 w' /\ In r (records id l).
Proof.
  induction hs as [|h hs IH]; intros w L w' H Hr.
  - inversion H; subst. destruct Hr.
  - inversion H as [|y1 a l w1 y5 L' y7 Hx He|y1 y2 w1 y4 y5 y6 Hno Hh1 He]; subst.
    + rewrite records_app, in_app_iff in Hr. destruct Hr as [Hr|Hr].
      * exists [], a, hs, [], w, l, w1, L'. split; [reflexivity|]. split; [constructor|auto].
      * destruct (IH _ _ _ He Hr) as (h1 & b & h2 & L1 & w2 & l2 & w3 & L2 & -> & H1 & H2). exists (HExec a :: h1), b, h2, (l ++ L1), w2, l2, w3, L2. split; [reflexivity|]. split; [econstructor; eauto|exact H2].
    + destruct (IH _ _ _ He Hr) as (h1 & b & h2 & L1 & w2 & l2 & w3 & L2 & -> & H1 & H2). exists (h :: h1), b, h2, L1, w2, l2, w3, L2. split; [reflexivity|]. split; [eapply emits_other; eauto|exact H2].
Qed.
Lemma executions_app b l l' : executions b (l ++ l') = executions b l + executions b l'.
Proof. induction l as [|h l IH]; [reflexivity|]. destruct h; cbn [app executions]; rewrite ?IH; lia. Qed.

Section Restock.
  Context (w0 : world) (c : snd_names) (distributors dealers agents : list val).
  Hypothesis F : snd_circus w0 c distributors dealers agents.

  Lemma snd_story_is a s : nth_error (w_stories w0) a = Some s -> a = bulk_purchases \/
    exists field members ops, is_story w0 a field members ops /\ forallb (mute "bulk_purchases") ops = true /\ forallb (fun o => negb (may_tell restock o)) ops = true.
  Proof.
    intros E. assert (L : a < 6) by (rewrite <- (snd_six _ _ _ _ _ F); apply nth_error_Some; congruence).
    destruct a as [|[|[|[|[|[|a]]]]]]; try lia; try (now left); right; do 3 eexists; (split; [|split]);
      [exact (snd_story_restock _ _ _ _ _ F)|reflexivity|reflexivity|exact (snd_story_purchases _ _ _ _ _ F)|reflexivity|reflexivity|exact (snd_story_start _ _ _ _ _ F)|reflexivity|reflexivity
      |exact (snd_story_stops _ _ _ _ _ F)|reflexivity|reflexivity|exact (snd_story_reviews _ _ _ _ _ F)|reflexivity|reflexivity].
  Qed.
  Lemma told_to_restock w a k : since w0 w -> told_during restock k w (HExec a) -> a = bulk_purchases.
  Proof.
    intros S (s & Es & _ & T). destruct (story_then w0 w a S s Es) as (s0 & Es0 & (_ & _ & _ & _ & _ & _ & _ & To & _)).
    destruct (snd_story_is a s0 Es0) as [Ea|(field & members & ops & (s1 & Es1 & _ & _ & judge & Eo) & _ & B)]; [exact Ea|]. exfalso.
    assert (s1 = s0) by congruence. subst s1. inversion T as [|b1 o1 r1 ? ? d1 l1 v1 Hr T1 Ec]; subst. apply told_may in T1. rewrite To, Eo in Ec.
    assert (Hin : In o1 (ops ++ [OpBack a judge])) by (rewrite <- Ec; apply in_or_app; right; now left).
    apply in_app_iff in Hin as [Hin|[<-|[]]]; [|discriminate]. rewrite forallb_forall in B. specialize (B _ Hin). rewrite T1 in B. discriminate.
  Qed.
  Lemma told_sale w l w' k : since w0 w -> execute bulk_purchases w = (Ok l, w') -> told_during restock k w (HExec bulk_purchases) ->
    exists r, In r (records "bulk_purchases" l) /\ r "DISTRIBUTOR"%string = k.
  Proof.
    intros S H T. destruct (snd_story_bulk _ _ _ _ _ F) as (s0 & Es0 & Ef & _ & judge & Eo).
    unshelve epose proof (told_logged w0 bulk_purchases s0 restock "DISTRIBUTOR" None "bulk_purchases" bulk_columns
      (choosing c ++ [grabbing c; storing c; OpApply ["SIM_BULK"%string] ["NUMBER_OF_SIMS"%string] map_len; OpAttrAdd (n_to_restock c) "DISTRIBUTOR" "NUMBER_OF_SIMS" false]) [] [OpBack bulk_purchases judge]
      ["DEALER_ID"; "DATETIME"; "DISTRIBUTOR"; "BULK_BUY_SIZE"; "SIM_BULK"; "NUMBER_OF_SIMS"]%string ["DEALER_ID"; "DATETIME"; "DISTRIBUTOR"; "BULK_BUY_SIZE"; "SIM_BULK"; "NUMBER_OF_SIMS"]%string
      Es0 _ _ _ _ _ _ _ _ w l w' k S H T) as (s & row & r & _ & _ & _ & Hi & Hin & Hs).
    - exact Eo.
    - rewrite Ef. unfold choosing, grabbing, storing. cbn [app]. build_snd ["DATETIME"]%string. build_snd ["DISTRIBUTOR"]%string. build_snd ["BULK_BUY_SIZE"]%string. build_snd ["SIM_BULK"]%string. build_snd (@nil string).
      build_snd ["NUMBER_OF_SIMS"]%string. build_snd (@nil string). apply built_up.
    - build_snd (@nil string). apply built_up.
    - constructor.
    - right. split; [apply incl_check; reflexivity|discriminate].
    - apply Forall_forall. apply forallb_forall. reflexivity.
    - reflexivity.
    - apply mem_In. reflexivity.
    - exists r. split; [exact Hin|]. rewrite <- Hi. apply Hs. apply mem_In. reflexivity.
  Qed.

  Lemma restocks_iff_sold hs L w' k : distinct_members w0 -> without_timer w0 restock -> (forall ids, ~ In (HForce restock ids) hs) -> emits w0 hs L w' -> k <> VNA ->
    acts_now w' restock k <-> exists before rest L1 w1 L2 r, hs = before ++ rest /\ emits w0 before L1 w1 /\ emits w1 rest L2 w' /\ executions restock rest = 0 /\
      In r (records "bulk_purchases" L2) /\ r "DISTRIBUTOR"%string = k.
  Proof.
    intros D T Nf H Nk. pose proof (start_since _ _ _ _ _ F) as S0. split.
    - intros A. destruct (only_when_told _ _ _ _ _ D T (CircusFacts.emits_history _ _ _ _ H) A) as (before & h & rest & w1 & -> & Hb & Td & E).
      destruct h as [a| |a ids|a ids|a ids states|a ids]; try contradiction Td.
      2: { destruct Td as [-> _]. exfalso. apply (Nf ids). apply in_or_app. right. now left. }
      destruct (CircusFacts.emits_app_inv _ _ _ _ _ H) as (L1 & w1' & L2 & _ & H1 & H2).
      assert (w1' = w1). { rewrite (history_after _ _ _ (CircusFacts.emits_history _ _ _ _ H1)). symmetry. exact (history_after _ _ _ Hb). } subst w1'.
      pose proof (emits_since _ _ _ _ _ S0 H1) as S1. pose proof (told_to_restock w1 a k S1 Td) as ->.
      inversion H2 as [|y1 y2 l w3 y5 L' y7 Hx He|y1 y2 y3 y4 y5 y6 Hno]; subst; [|exfalso; exact (Hno _ eq_refl)].
      destruct (told_sale w1 l w3 k S1 Hx Td) as (r & Hr & Ek). exists before, (HExec bulk_purchases :: rest), L1, w1, (l ++ L'), r. split; [reflexivity|]. split; [exact H1|]. split; [exact H2|].
      split; [exact E|]. split; [rewrite records_app, in_app_iff; now left|exact Ek].
    - intros (before & rest & L1 & w1 & L2 & r & -> & H1 & H2 & E & Hr & Ek).
      destruct (written_by _ _ _ _ _ _ H2 Hr) as (h1 & a & h2 & La & wa & l & wb & Lb & -> & Ha & Hx & Hb & Hl).
      pose proof (emits_since _ _ _ _ _ (emits_since _ _ _ _ _ S0 H1) Ha) as Sa.
      assert (Ea : a = bulk_purchases).
      { pose proof Hx as Hx'. apply execute_ok in Hx' as (s & Es & _). destruct (story_then w0 wa a Sa s Es) as (s0 & Es0 & _).
        destruct (snd_story_is a s0 Es0) as [Ea|(field & members & ops & Is & B & _)]; [exact Ea|]. rewrite (silent _ "bulk_purchases" a _ _ _ _ _ _ Is B Sa Hx) in Hl. destruct Hl. }
      subst a. rewrite executions_app in E. cbn [executions] in E.
      assert (Da : distinct_members wa).
      { rewrite (history_after _ _ _ (CircusFacts.emits_history _ _ _ _ Ha)). apply after_distinct. rewrite (history_after _ _ _ (CircusFacts.emits_history _ _ _ _ H1)). now apply after_distinct. }
      rewrite (history_after _ _ _ (CircusFacts.emits_history _ _ _ _ Hb)).
      exact (order_forces w0 c distributors dealers agents F wa l wb r k h2 Sa Da Hx Hl Ek Nk ltac:(cbn in E; lia)).
  Qed.
End Restock.
