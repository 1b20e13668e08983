(** What the records of tests/scenarios/test_snd.py tell was true when they were logged. *)
From Verif Require Import Base BaseFacts Rng Utils UtilsFacts Relationship RelationshipFacts SpecRelationship Frame Gens Clock SpecClock Attribute SpecAttribute AttributeFacts World Story Ops OpsFacts Helpers
  Circus SpecStory StoryFacts StoryExec SpecOps OpsProps OpsColumns OpsMore SpecCircus SpecPopulation SpecLocal LocalFacts SpecSupply SpecLedger LedgerProps SpecRecords RecordsProps SpecNow NowProps SpecJournal
  RowsProps SpecSafe SafeOps SafeRun GeographyLog Geography Cdr SpecCdr CdrFacts SpecCdrLogs CdrLogs CdrBooks OpRows Snd SpecSnd WorldProps CdrProps SupplyFacts SndBooks.
From Coq Require Import Permutation Sorted.

(** ** Stories create no attribute *)
Definition as_many (w w' : world) : Prop := length (w_attrs w') = length (w_attrs w).
Lemma many_refl w : as_many w w. Proof. reflexivity. Qed.
Lemma many_trans a b c : as_many a b -> as_many b c -> as_many a c. Proof. unfold as_many. congruence. Qed.
Lemma many_same w w' : w_attrs w' = w_attrs w -> as_many w w'. Proof. unfold as_many. congruence. Qed.
Lemma many_other h w w' : (forall a, h <> HExec a) -> happen h w = (Ok tt, w') -> as_many w w'.
Proof. intros N H. apply many_same. now destruct (other_fields h w w' N H) as (_ & _ & _ & E). Qed.
Lemma force_many a ids : keeps as_many (story_force a ids).
Proof. intros w. unfold story_force, bindM, deref. destruct (nth_error (w_stories w) a) as [s|]; [|reflexivity]. destruct (force_act_next s ids). reflexivity. Qed.
Lemma reset_many a ids : keeps as_many (story_reset a ids).
Proof.
  intros w. unfold story_reset, bindM, deref, lift. destruct (nth_error (w_stories w) a) as [s|]; [|reflexivity]. destruct (nth_error (w_tgens w) (st_tgen s)) as [g|]; [|reflexivity].
  destruct (reset_timers s g ids) as [[s' g']|e]; reflexivity.
Qed.
Lemma transit_many a ids st : keeps as_many (story_transit a ids st).
Proof. intros w. unfold story_transit, bindM, deref, lift. destruct (nth_error (w_stories w) a) as [s|]; [|reflexivity]. destruct (transit_to_state s ids st); reflexivity. Qed.
Lemma tick_many a ids : keeps as_many (story_tick a ids).
Proof. intros w. unfold story_tick, bindM, deref, lift. destruct (nth_error (w_stories w) a) as [s|]; [|reflexivity]. destruct (timer_tick s ids); reflexivity. Qed.
Lemma chain_many ops d : keeps as_many (run_chain ops d).
Proof.
  apply (run_chain_keeps as_many (fun _ => True) (fun _ => True) (fun _ => True)); auto.
  - exact many_refl.
  - exact many_trans.
  - intros; now apply many_same.
  - intros; now apply many_same.
  - intros; now apply many_same.
  - intros; now apply many_same.
  - intros w i t t' _ _. unfold as_many. apply set_nth_length.
  - intros; now apply many_same.
  - intros; apply force_many.
  - intros; apply reset_many.
  - intros; apply transit_many.
Qed.
Ltac many := apply (keeps_bind as_many); [exact many_trans| |].
Lemma execute_many a : keeps as_many (execute a).
Proof.
  intros w. unfold execute. apply (keeps_bind_dep as_many); [exact many_trans|apply (keeps_deref as_many many_refl)|].
  intros s w1 E. apply deref_ok in E. destruct E as [E ->]. revert w E. intros w E.
  apply (keeps_bind_dep as_many); [exact many_trans|reflexivity|]. intros _ w2 _. revert w2.
  destruct (active_inactive_ids s) as [act inact].
  change (keeps as_many (let* all_logs := match act with
    | [] => ret []
    | _ => let* (_, l) := run_chain (st_ops s) (init_story_data (st_field s) act) in
           let* _ := if st_auto s then story_reset a (Some act) else story_tick a act in ret l
    end in let* _ := story_tick a inact in ret all_logs)).
  many.
  - destruct act; [apply (keeps_ret as_many many_refl)|]. many; [apply chain_many|]. intros [d l].
    many; [|intros; apply (keeps_ret as_many many_refl)].
    destruct (st_auto s); [apply reset_many|apply tick_many].
  - intros l. many; [apply tick_many|intros; apply (keeps_ret as_many many_refl)].
Qed.
Lemma emits_many hs : forall w L w', emits w hs L w' -> as_many w w'.
Proof.
  induction hs as [|h hs IH]; intros w L w' H.
  - inversion H; subst. apply many_refl.
  - inversion H as [|y1 a l w1 y5 L' y7 Hx He|y1 y2 w1 y4 y5 y6 Hno Hh He]; subst.
    + eapply many_trans; [|exact (IH _ _ _ He)]. pose proof (execute_many a w) as K. now rewrite Hx in K.
    + eapply many_trans; [exact (many_other h w w1 Hno Hh)|exact (IH _ _ _ He)].
Qed.

Section Truth.
  Context (w0 : world) (c : snd_names) (distributors dealers agents : list val).
  Hypothesis F : snd_circus w0 c distributors dealers agents.
  Notation dealt := (n_dealer_sims c).
  Notation distributed := (n_distro_sims c).

  Lemma attribute_still w p name x : since w0 w -> has_attribute w0 p name x -> exists po, nth_error (w_pops w) p = Some po /\ dget name (p_attrs po) = Some x.
  Proof.
    intros S (po & Hp & Hx). destruct (sc_shape _ _ S) as (_ & _ & _ & K & _). specialize (K p). rewrite Hp in K.
    destruct (nth_error (w_pops w) p) as [po'|] eqn:E; [|discriminate]. exists po'. split; [reflexivity|]. cbn in K. congruence.
  Qed.
  Lemma lookup_shown w p name x before from row : since w0 w -> as_many w0 w -> has_attribute w0 p name x -> x < length (w_attrs w0) ->
    Forall (fun o => RowsProps.leaves x o = true) before -> tells_now w before (OpLookup p from [(name, name)]) row -> shown_by w x (row from) (row name).
  Proof.
    intros S M Ha Hx B T. destruct (attribute_still w p name x S Ha) as (po & Hp & Hn).
    destruct (nth_error (w_attrs w) x) as [t|] eqn:Et; [|apply nth_error_None in Et; unfold as_many in M; lia]. exists t. split; [exact Et|].
    refine (T name name po x t (or_introl eq_refl) Hp Hn Et _). intros o Ho. apply leaves_changes. rewrite Forall_forall in B. auto.
  Qed.
  Lemma untouched_by ops r : forallb (avoids r) ops = true -> untouched_relationship ops r.
  Proof.
    intros H o o' Ho P M. rewrite forallb_forall in H. specialize (H o Ho). assert (o' = o) by (inversion P; subst; [reflexivity|discriminate H]). subst o'.
    destruct o; cbn in M, H; try contradiction; try (destruct M as [M ?]); try subst; rewrite Nat.eqb_refl in H; discriminate.
  Qed.

  Lemma bulk_true w l w' : since w0 w -> as_many w0 w -> execute bulk_purchases w = (Ok l, w') -> Forall (a_bulk_purchase w c) (records "bulk_purchases" l).
  Proof.
    intros S M H. destruct (bulk_exec _ _ _ _ _ F w l w' S H) as (s & rows & Es & Ef & Sh & Rows & _). apply Forall_forall. intros r Hr. destruct (shown_in _ _ _ _ Sh Hr) as (row & Hin & S1).
    rewrite Forall_forall in Rows. destruct (Rows _ Hin) as [T Hd]. pose proof (bulk_told c w s row (Rows _ Hin)) as (ts & E1 & E2 & I). rewrite Ef in Hd.
    unfold a_bulk_purchase. rewrite (S1 "DEALER_ID"%string), (S1 "DISTRIBUTOR"%string), (S1 "NUMBER_OF_SIMS"%string) by (cbn; tauto).
    split; [exists s; auto|]. split.
    - pose proof (T (firstn 1 (choosing c)) (OpSelectOne (n_distro_of c) "DEALER_ID" "DISTRIBUTOR" false false false None) (tl (tl (choosing c)) ++ [grabbing c] ++ storing c :: reporting c) eq_refl) as K. cbn in K.
      destruct (K (untouched_by [OpTimestamp "DATETIME" true (n_fmt c)] _ eq_refl)) as [K1|(_ & K1 & K2)]; auto.
    - pose proof (T (choosing c) (grabbing c) (storing c :: reporting c) eq_refl) as K. cbn in K. destruct K as (ts' & n & others & K1 & K2 & K3 & P).
      { intros o o' Ho Pt Mv. destruct Ho as [<-|[<-|[<-|[]]]]; inversion Pt; subst; cbn in Mv; try contradiction. destruct Mv as [_ Mv]. discriminate. }
      assert (ts' = ts) by congruence. subst ts'. exists n, (length ts). split; [|split; [exact E2|split; [exact K3|]]].
      + rewrite <- K2. refine (lookup_shown w (n_dealers c) "BULK_BUY_SIZE" (n_bulk_size c) (firstn 2 (choosing c)) "DEALER_ID" row S M _ _ _ _).
        * apply (snd_attributes _ _ _ _ _ F).
        * apply (snd_attributes _ _ _ _ _ F). cbn. tauto.
        * repeat constructor.
        * exact (T (firstn 2 (choosing c)) _ ([grabbing c] ++ storing c :: reporting c) eq_refl).
      + rewrite (Permutation_length P), app_length. lia.
  Qed.
  Lemma restock_true w l w' : since w0 w -> as_many w0 w -> execute restock w = (Ok l, w') -> Forall (a_restock w c) (records "distributor_restock" l).
  Proof.
    intros S M H. destruct (restock_exec _ _ _ _ _ F w l w' S H) as (s & rows & Es & Ef & Sh & Rows & _). apply Forall_forall. intros r Hr. destruct (shown_in _ _ _ _ Sh Hr) as (row & Hin & S1).
    rewrite Forall_forall in Rows. destruct (Rows _ Hin) as [T Hd]. rewrite Ef in Hd.
    unfold a_restock. rewrite (S1 "DISTRIBUTOR_ID"%string), (S1 "SIMS_TO_RESTOCK"%string), (S1 "DATETIME"%string) by (cbn; tauto).
    split; [exists s; auto|]. split.
    - refine (lookup_shown w (n_distros c) "SIMS_TO_RESTOCK" (n_to_restock c) (firstn 1 (ordering c)) "DISTRIBUTOR_ID" row S M _ _ _ _).
      + apply (snd_attributes _ _ _ _ _ F).
      + apply (snd_attributes _ _ _ _ _ F). cbn. tauto.
      + repeat constructor.
      + exact (T (firstn 1 (ordering c)) _ (skipn 2 (ordering c) ++ receiving c :: settling c) eq_refl).
    - exact (T [] _ _ eq_refl).
  Qed.

  (** ** Holidays and reviews *)
  Lemma stories_of a s : nth_error (w_stories w0) a = Some s ->
    In (a, st_field s) [(restock, "DISTRIBUTOR_ID"); (purchases, "AGENT"); (bulk_purchases, "DEALER_ID"); (start_holidays, "AGENT"); (stops_holidays, "AGENT"); (reviews, "AGENT")]%string /\
    exists judge, st_ops s = nth a [snd_restock c; snd_purchases c; snd_bulk_purchases c; snd_start_holidays c; snd_stops_holidays c; snd_reviews c] [] ++ [OpBack a judge].
  Proof.
    intros Es. destruct a as [|[|[|[|[|[|a]]]]]].
    - destruct (snd_story_restock _ _ _ _ _ F) as (s' & E' & Ef & _ & Eo). change restock with 0 in E'. assert (s' = s) by congruence. subst s'. split; [rewrite Ef; cbn; tauto|exact Eo].
    - destruct (snd_story_purchases _ _ _ _ _ F) as (s' & E' & Ef & _ & Eo). change purchases with 1 in E'. assert (s' = s) by congruence. subst s'. split; [rewrite Ef; cbn; tauto|exact Eo].
    - destruct (snd_story_bulk _ _ _ _ _ F) as (s' & E' & Ef & _ & Eo). change bulk_purchases with 2 in E'. assert (s' = s) by congruence. subst s'. split; [rewrite Ef; cbn; tauto|exact Eo].
    - destruct (snd_story_start _ _ _ _ _ F) as (s' & E' & Ef & _ & Eo). change start_holidays with 3 in E'. assert (s' = s) by congruence. subst s'. split; [rewrite Ef; cbn; tauto|exact Eo].
    - destruct (snd_story_stops _ _ _ _ _ F) as (s' & E' & Ef & _ & Eo). change stops_holidays with 4 in E'. assert (s' = s) by congruence. subst s'. split; [rewrite Ef; cbn; tauto|exact Eo].
    - destruct (snd_story_reviews _ _ _ _ _ F) as (s' & E' & Ef & _ & Eo). change reviews with 5 in E'. assert (s' = s) by congruence. subst s'. split; [rewrite Ef; cbn; tauto|exact Eo].
    - exfalso. change (nth_error (w_stories w0) (6 + a) = Some s) in Es. assert (X : nth_error (w_stories w0) (6 + a) = None) by (apply nth_error_None; rewrite (snd_six _ _ _ _ _ F); lia). congruence.
  Qed.
  Lemma holidays_tidy : tidy w0 "holidays".
  Proof.
    intros a s Es. destruct (stories_of a s Es) as (Hin & judge & Eo). rewrite Eo.
    assert (Q : forall ops, forallb (mute "holidays") ops = true -> forall o c' ex, In o (ops ++ [OpBack a judge]) -> ~ part_of (OpFieldLogger "holidays" c' ex) o).
    { intros ops B o c' ex Ho. apply mute_quiet. rewrite forallb_forall in B. apply in_app_iff in Ho as [Ho|[<-|[]]]; [auto|reflexivity]. }
    destruct Hin as [[= <- <-]|[[= <- <-]|[[= <- <-]|[[= <- <-]|[[= <- <-]|[[= <- <-]|[]]]]]]].
    - right. apply Q. reflexivity.
    - right. apply Q. reflexivity.
    - right. apply Q. reflexivity.
    - left. eexists. cbn [nth app snd_start_holidays start_holidays]. build_snd (@nil string). build_snd (@nil string). build_snd ["TIME"]%string. build_snd ["STATES"]%string. build_snd (@nil string). build_snd (@nil string). apply built_up.
    - left. eexists. cbn [nth app snd_stops_holidays stops_holidays]. build_snd (@nil string). build_snd ["TIME"]%string. build_snd ["STATES"]%string. build_snd (@nil string). build_snd (@nil string). apply built_up.
    - right. apply Q. reflexivity.
  Qed.
  Lemma reviews_tidy : tidy w0 "reviews".
  Proof.
    intros a s Es. destruct (stories_of a s Es) as (Hin & judge & Eo). rewrite Eo.
    assert (Q : forall ops, forallb (mute "reviews") ops = true -> forall o c' ex, In o (ops ++ [OpBack a judge]) -> ~ part_of (OpFieldLogger "reviews" c' ex) o).
    { intros ops B o c' ex Ho. apply mute_quiet. rewrite forallb_forall in B. apply in_app_iff in Ho as [Ho|[<-|[]]]; [auto|reflexivity]. }
    destruct Hin as [[= <- <-]|[[= <- <-]|[[= <- <-]|[[= <- <-]|[[= <- <-]|[[= <- <-]|[]]]]]]]; try (right; apply Q; reflexivity).
    left. eexists. cbn [nth app snd_reviews reviews]. build_snd ["DATETIME"]%string. build_snd ["AGENT_NAME"]%string. build_snd ["REVIEW_ID"]%string. build_snd ["REVIEW_TEXT"]%string.
    build_snd (@nil string). build_snd (@nil string). build_snd (@nil string). apply built_up.
  Qed.

  (** The only logger of [id] in a list of operations *)
  Lemma logger_at id names ex pre post before ns e afterwards : pre ++ OpFieldLogger id names ex :: post = before ++ OpFieldLogger id ns e :: afterwards ->
    forallb (mute id) pre = true -> forallb (mute id) post = true -> before = pre /\ ns = names /\ e = ex.
  Proof.
    intros E B1 B2. assert (K : forall l, forallb (mute id) l = true -> In (OpFieldLogger id ns e) l -> False).
    { intros l B Hin. rewrite forallb_forall in B. specialize (B _ Hin). cbn in B. rewrite String.eqb_refl in B. discriminate. }
    revert before E. induction pre as [|x pre IH]; intros before E.
    - destruct before as [|y before]; cbn [app] in E.
      + injection E as -> -> ->. auto.
      + injection E as _ E. exfalso. apply (K post B2). rewrite E. apply in_or_app. right. now left.
    - cbn [forallb] in B1. apply andb_true_iff in B1 as [Bx B1]. destruct before as [|y before]; cbn [app] in E.
      + injection E as -> _. exfalso. apply (K [OpFieldLogger id ns e]); [cbn [forallb]; now rewrite Bx|now left].
      + injection E as <- E. destruct (IH B1 before E) as (-> & -> & ->). auto.
  Qed.
  Lemma mute_none id ops : forallb (mute id) ops = true -> forall before ns e afterwards, ops <> before ++ OpFieldLogger id ns e :: afterwards.
  Proof.
    intros B before ns e afterwards ->. rewrite forallb_app in B. apply andb_true_iff in B as [_ B]. cbn in B. rewrite String.eqb_refl in B. discriminate.
  Qed.
  Lemma story_now a s w : since w0 w -> nth_error (w_stories w) a = Some s ->
    In (a, st_field s) [(restock, "DISTRIBUTOR_ID"); (purchases, "AGENT"); (bulk_purchases, "DEALER_ID"); (start_holidays, "AGENT"); (stops_holidays, "AGENT"); (reviews, "AGENT")]%string /\
    exists judge, st_ops s = nth a [snd_restock c; snd_purchases c; snd_bulk_purchases c; snd_start_holidays c; snd_stops_holidays c; snd_reviews c] [] ++ [OpBack a judge].
  Proof.
    intros S Es. destruct (story_then w0 w _ S s Es) as (s0 & Es0 & T). pose proof T as (_ & _ & Tf & _ & _ & _ & _ & To & _). rewrite Tf, To. now apply stories_of.
  Qed.

  Lemma holidays_true a w l w' : since w0 w -> execute a w = (Ok l, w') -> Forall (a_holiday w c) (records "holidays" l).
  Proof.
    intros S H. eapply Forall_impl; [|exact (exec_now w0 w "holidays" a l w' holidays_tidy S H)]. intros r (s & before & ns & e & afterwards & row & k & Es & Eo & Sh & _ & T & Hin).
    destruct (story_now a s w S Es) as (Hf & judge & Eo'). rewrite Eo' in Eo. clear Eo'.
    destruct Hf as [[= <- Ef]|[[= <- Ef]|[[= <- Ef]|[[= <- Ef]|[[= <- Ef]|[[= <- Ef]|[]]]]]]]; try (exfalso; revert Eo; apply mute_none; reflexivity); rewrite <- Ef in Hin.
    - destruct (logger_at "holidays" [] [] (firstn 4 (snd_start_holidays c)) [OpBack start_holidays judge] _ _ _ _ Eo eq_refl eq_refl) as (-> & -> & ->).
      cbn [mem existsb] in Sh. unfold a_holiday. rewrite !Sh by (now left). split; [left; split; [exists s; auto|]|].
      + exact (T (firstn 3 (snd_start_holidays c)) _ [] eq_refl).
      + exact (T (firstn 2 (snd_start_holidays c)) (OpTimestamp "TIME" true (n_fmt c)) _ eq_refl).
    - destruct (logger_at "holidays" [] [] (firstn 3 (snd_stops_holidays c)) [OpBack stops_holidays judge] _ _ _ _ Eo eq_refl eq_refl) as (-> & -> & ->).
      cbn [mem existsb] in Sh. unfold a_holiday. rewrite !Sh by (now left). split; [right; split; [exists s; auto|]|].
      + exact (T (firstn 2 (snd_stops_holidays c)) _ [] eq_refl).
      + exact (T (firstn 1 (snd_stops_holidays c)) (OpTimestamp "TIME" true (n_fmt c)) _ eq_refl).
  Qed.
  Lemma reviews_true a w l w' : since w0 w -> as_many w0 w -> execute a w = (Ok l, w') -> Forall (a_review w c) (records "reviews" l).
  Proof.
    intros S M H. eapply Forall_impl; [|exact (exec_now w0 w "reviews" a l w' reviews_tidy S H)]. intros r (s & before & ns & e & afterwards & row & k & Es & Eo & Sh & _ & T & Hin).
    destruct (story_now a s w S Es) as (Hf & judge & Eo'). rewrite Eo' in Eo. clear Eo'.
    destruct Hf as [[= <- Ef]|[[= <- Ef]|[[= <- Ef]|[[= <- Ef]|[[= <- Ef]|[[= <- Ef]|[]]]]]]]; try (exfalso; revert Eo; apply mute_none; reflexivity); rewrite <- Ef in Hin.
    destruct (logger_at "reviews" [] [] (firstn 5 (snd_reviews c)) [OpBack reviews judge] _ _ _ _ Eo eq_refl eq_refl) as (-> & -> & ->).
    cbn [mem existsb] in Sh. unfold a_review. rewrite !Sh by (now left). split; [exists s; auto|]. split; [|split; [|split]].
    - refine (lookup_shown w (n_agents c) "AGENT_NAME" (n_agent_name c) (firstn 1 (snd_reviews c)) "AGENT" row S M _ _ _ _).
      + apply (snd_attributes _ _ _ _ _ F).
      + apply (snd_attributes _ _ _ _ _ F). cbn. tauto.
      + repeat constructor.
      + exact (T (firstn 1 (snd_reviews c)) _ (skipn 2 (firstn 5 (snd_reviews c))) eq_refl).
    - exact (T (firstn 2 (snd_reviews c)) (OpGenerate (n_review_ids c) "REVIEW_ID" None) _ eq_refl).
    - exact (T (firstn 3 (snd_reviews c)) (OpGenerate (n_texts c) "REVIEW_TEXT" None) _ eq_refl).
    - exact (T [] (OpTimestamp "DATETIME" true (n_fmt c)) _ eq_refl).
  Qed.

  Lemma quiet_elsewhere id a b w l w' : since w0 w -> execute a w = (Ok l, w') -> a <> b ->
    (forall k, k <> b -> k < 6 -> forallb (mute id) (nth k [snd_restock c; snd_purchases c; snd_bulk_purchases c; snd_start_holidays c; snd_stops_holidays c; snd_reviews c] []) = true) -> records id l = [].
  Proof.
    intros S H Ne B. pose proof H as H'. apply execute_ok in H' as (s & Es & _). destruct (story_then w0 w _ S s Es) as (s0 & Es0 & _).
    apply (exec_silent w0 a s0 Es0 id w l w' S); [|exact H]. destruct (stories_of a s0 Es0) as (_ & judge & Eo). rewrite Eo. intros o Ho.
    assert (a < 6) by (rewrite <- (snd_six _ _ _ _ _ F); apply nth_error_Some; congruence). specialize (B a Ne H0). rewrite forallb_forall in B. apply in_app_iff in Ho as [Ho|[<-|[]]]; [auto|reflexivity].
  Qed.
  Lemma each_true id tells a w l w' : In (id, tells) snd_logs -> since w0 w -> as_many w0 w -> stocked c w -> execute a w = (Ok l, w') -> Forall (tells w c) (records id l).
  Proof.
    intros Hin S M N H. destruct Hin as [[= <- <-]|[[= <- <-]|[[= <- <-]|[[= <- <-]|[[= <- <-]|[]]]]]].
    - exact (purchases_true _ _ _ _ _ F a w l w' S N H).
    - destruct (Nat.eq_dec a bulk_purchases) as [->|Ne]; [exact (bulk_true w l w' S M H)|].
      rewrite (quiet_elsewhere "bulk_purchases" a bulk_purchases w l w' S H Ne); [constructor|]. intros k Nk Hk. do 6 (destruct k as [|k]; [first [reflexivity|now destruct Nk]|]). lia.
    - destruct (Nat.eq_dec a restock) as [->|Ne]; [exact (restock_true w l w' S M H)|].
      rewrite (quiet_elsewhere "distributor_restock" a restock w l w' S H Ne); [constructor|]. intros k Nk Hk. do 6 (destruct k as [|k]; [first [reflexivity|now destruct Nk]|]). lia.
    - exact (holidays_true a w l w' S H).
    - exact (reviews_true a w l w' S M H).
  Qed.
  Lemma snd_true hs L w' : emits w0 hs L w' -> forall id tells, In (id, tells) snd_logs ->
    exists pasts, Forall2 (was_true tells w0 c hs) pasts (records id L) /\ StronglySorted earlier pasts.
  Proof.
    intros H id tells Hin. destruct (history_each w0 id (fun w a r => as_many w0 w -> stocked c w -> tells w c r)) with (hs := hs) (past := @nil happening) (L0 := @nil (string * df)) (w := w0) (L := L) (w' := w') as (pasts & K1 & K2 & _).
    - intros a w l w1 S Hx. apply Forall_forall. intros r Hr M N. pose proof (each_true id tells a w l w1 Hin S M N Hx) as K. rewrite Forall_forall in K. auto.
    - exact (start_since _ _ _ _ _ F).
    - constructor.
    - exact H.
    - exists pasts. split; [|exact K2]. eapply Forall2_weaken; [|exact K1]. intros p r (a & future & L1 & w1 & E & He & K). cbn [app] in E. exists a, future, L1, w1. split; [exact E|]. split; [exact He|].
      apply K; [exact (emits_many _ _ _ _ He)|exact (bk_stocked _ _ _ _ (booked_all _ _ _ _ _ F _ _ _ He))].
  Qed.

  (** ** The dealers who buy in bulk are members of their population *)
  Lemma bulk_by_dealers hs : forall w L w', since w0 w -> emits w hs L w' -> Forall (fun r : record => In (r "DEALER_ID"%string) dealers) (records "bulk_purchases" L).
  Proof.
    induction hs as [|h hs IH]; intros w L w' S H.
    - inversion H; subst. constructor.
    - inversion H as [|y1 a l w1 y5 L' y7 Hx He|y1 y2 w1 y4 y5 y6 Hno Hh He]; subst; [|exact (IH _ _ _ (other_since w0 _ _ _ Hno Hh S) He)].
      rewrite records_app. apply Forall_app. split; [|exact (IH _ _ _ (exec_since w0 _ _ _ _ S Hx) He)].
      destruct (Nat.eq_dec a bulk_purchases) as [->|Ne].
      + destruct (bulk_exec _ _ _ _ _ F w l w1 S Hx) as (s & rows & Es & Ef & Sh & Rows & _). apply Forall_forall. intros r Hr. destruct (shown_in _ _ _ _ Sh Hr) as (row & Hin & S1).
        rewrite Forall_forall in Rows. destruct (Rows _ Hin) as [_ Hd]. rewrite Ef in Hd. rewrite (S1 "DEALER_ID"%string) by (cbn; tauto).
        destruct (story_then w0 w _ S s Es) as (s0 & Es0 & T). pose proof T as (_ & _ & _ & _ & _ & _ & _ & _ & Ti).
        destruct (snd_story_bulk _ _ _ _ _ F) as (s0' & Es0' & _ & Ei & _). assert (s0' = s0) by congruence. subst s0'. rewrite <- Ei, <- Ti. unfold st_ids, dkeys. unfold due_members in Hd.
        apply in_map_iff in Hd as (x & <- & Hd). apply filter_In in Hd as [Hd _]. now apply in_map.
      + rewrite (quiet_elsewhere "bulk_purchases" a bulk_purchases w l w1 S Hx Ne); [constructor|]. intros k Nk Hk. do 6 (destruct k as [|k]; [first [reflexivity|now destruct Nk]|]). lia.
  Qed.
  Lemma outsider_sales hs L w' d : emits w0 hs L w' -> ~ In d dealers -> length (items w' dealt d) + length (of_whom "DEALER" d (successful (records "purchases" L))) = length (items w0 dealt d).
  Proof.
    intros H Nd. pose proof (bk_dealt _ _ _ _ (booked_all _ _ _ _ _ F _ _ _ H) d) as K. pose proof (bulk_by_dealers _ _ _ _ (start_since _ _ _ _ _ F) H) as B.
    assert (E : of_whom "DEALER_ID" d (records "bulk_purchases" L) = []).
    { clear K. unfold of_whom. rewrite Forall_forall in B. revert B. generalize (records "bulk_purchases" L). intros rs. induction rs as [|r rs IH]; intros B; [reflexivity|]. cbn [filter]. destruct (val_eqb (r "DEALER_ID"%string) d) eqn:E.
      - apply val_eqb_eq in E. exfalso. apply Nd. rewrite <- E. apply B. now left.
      - apply IH. intros x Hx. apply B. now right. }
    rewrite E in K. change (sum_shown "NUMBER_OF_SIMS" []) with 0%Qc in K. rewrite <- qnat_add in K. replace (qnat (length (items w0 dealt d)) + 0)%Qc with (qnat (length (items w0 dealt d))) in K by ring.
    unfold qnat in K. apply (f_equal this) in K. cbn [this Q2Qc] in K. apply Qred_eq_iff in K. unfold sold_in in K. unfold Qeq in K. cbn [Qnum Qden inject_Z] in K. lia.
  Qed.

  (** ** Headers *)
  Definition snd_columns (id : string) : list string :=
    if String.eqb id "purchases" then purchase_columns else if String.eqb id "bulk_purchases" then bulk_columns else if String.eqb id "distributor_restock" then restock_columns
    else if String.eqb id "holidays" then ["AGENT"; "TIME"; "STATES"]%string else ["AGENT"; "DATETIME"; "AGENT_NAME"; "REVIEW_ID"; "REVIEW_TEXT"]%string.
  Lemma quiet_with id a judge ops : forallb (mute id) ops = true -> forall o c' ex, In o (ops ++ [OpBack a judge]) -> ~ part_of (OpFieldLogger id c' ex) o.
  Proof. intros B o c' ex Ho. apply mute_quiet. rewrite forallb_forall in B. apply in_app_iff in Ho as [Ho|[<-|[]]]; [auto|reflexivity]. Qed.
  Lemma quiet_around id ops : forallb (mute id) ops = true -> forall o c' ex, In o ops -> ~ part_of (OpFieldLogger id c' ex) o.
  Proof. intros B o c' ex Ho. apply mute_quiet. rewrite forallb_forall in B. auto. Qed.
  Lemma snd_header id tells : In (id, tells) snd_logs -> one_header w0 id (snd_columns id).
  Proof.
    assert (Ag : forall id', (forall k ns ex, k < 6 -> In (OpFieldLogger id' ns ex) (nth k [snd_restock c; snd_purchases c; snd_bulk_purchases c; snd_start_holidays c; snd_stops_holidays c; snd_reviews c] []) -> ns = snd_columns id') -> loggers_agree w0 id' (snd_columns id')).
    { intros id' B a s o ns ex Es Ho P. destruct (stories_of a s Es) as (_ & judge & Eo). rewrite Eo in Ho. assert (Ha : a < 6) by (rewrite <- (snd_six _ _ _ _ _ F); apply nth_error_Some; congruence).
      apply in_app_iff in Ho as [Ho|[<-|[]]]; [|inversion P]. apply (B a ns ex Ha).
      assert (X : o = OpFieldLogger id' ns ex); [|now rewrite <- X].
      clear - Ho P Ha. assert (forallb (fun o => match o with OpChain _ => false | _ => true end) (nth a [snd_restock c; snd_purchases c; snd_bulk_purchases c; snd_start_holidays c; snd_stops_holidays c; snd_reviews c] []) = true) as B.
      { do 6 (destruct a as [|a]; [reflexivity|]). lia. }
      rewrite forallb_forall in B. specialize (B _ Ho). inversion P; subst; [reflexivity|discriminate B]. }
    intros Hin. destruct Hin as [[= <- _]|[[= <- _]|[[= <- _]|[[= <- _]|[[= <- _]|[]]]]]].
    - right. intros a s Es. destruct (stories_of a s Es) as (Hf & judge & Eo). rewrite Eo.
      destruct Hf as [[= <- Ef]|[[= <- Ef]|[[= <- Ef]|[[= <- Ef]|[[= <- Ef]|[[= <- Ef]|[]]]]]]]; try (left; apply quiet_with; reflexivity). right.
      exists (firstn 5 (snd_purchases c)), (skipn 6 (snd_purchases c) ++ [OpBack purchases judge]). split; [reflexivity|]. split; [|apply quiet_around; reflexivity]. rewrite <- Ef. cbn [firstn snd_purchases].
      build_snd ["DATETIME"]%string. build_snd ["DEALER"]%string. build_snd ["SOLD_SIM"]%string. build_snd ["FAILED_SALE"]%string. build_snd (@nil string). apply built_up.
    - left. split; [discriminate|]. apply Ag. intros k ns ex Hk Hin. do 6 (destruct k as [|k]; [cbn in Hin; repeat (destruct Hin as [Hin|Hin]; [first [discriminate Hin|injection Hin as <- _; reflexivity]|]); contradiction|]). lia.
    - left. split; [discriminate|]. apply Ag. intros k ns ex Hk Hin. do 6 (destruct k as [|k]; [cbn in Hin; repeat (destruct Hin as [Hin|Hin]; [first [discriminate Hin|injection Hin as <- _; reflexivity]|]); contradiction|]). lia.
    - right. intros a s Es. destruct (stories_of a s Es) as (Hf & judge & Eo). rewrite Eo.
      destruct Hf as [[= <- Ef]|[[= <- Ef]|[[= <- Ef]|[[= <- Ef]|[[= <- Ef]|[[= <- Ef]|[]]]]]]]; try (left; apply quiet_with; reflexivity); right.
      + exists (firstn 4 (snd_start_holidays c)), [OpBack start_holidays judge]. split; [reflexivity|]. split; [|apply quiet_around; reflexivity]. rewrite <- Ef. cbn [firstn snd_start_holidays].
        build_snd (@nil string). build_snd (@nil string). build_snd ["TIME"]%string. build_snd ["STATES"]%string. apply built_up.
      + exists (firstn 3 (snd_stops_holidays c)), [OpBack stops_holidays judge]. split; [reflexivity|]. split; [|apply quiet_around; reflexivity]. rewrite <- Ef. cbn [firstn snd_stops_holidays].
        build_snd (@nil string). build_snd ["TIME"]%string. build_snd ["STATES"]%string. apply built_up.
    - right. intros a s Es. destruct (stories_of a s Es) as (Hf & judge & Eo). rewrite Eo.
      destruct Hf as [[= <- Ef]|[[= <- Ef]|[[= <- Ef]|[[= <- Ef]|[[= <- Ef]|[[= <- Ef]|[]]]]]]]; try (left; apply quiet_with; reflexivity). right.
      exists (firstn 5 (snd_reviews c)), [OpBack reviews judge]. split; [reflexivity|]. split; [|apply quiet_around; reflexivity]. rewrite <- Ef. cbn [firstn snd_reviews].
      build_snd ["DATETIME"]%string. build_snd ["AGENT_NAME"]%string. build_snd ["REVIEW_ID"]%string. build_snd ["REVIEW_TEXT"]%string. build_snd (@nil string). apply built_up.
  Qed.
End Truth.
