(** The moves of the subscribers and the health of the cells of tests/scenarios/test_cdr.py. *)
From Verif Require Import Base BaseFacts Rng Utils UtilsFacts Relationship RelationshipFacts SpecRelationship Frame Gens Clock SpecClock Attribute SpecAttribute AttributeFacts World Story Ops OpsFacts Helpers
  Circus SpecStory StoryFacts StoryExec SpecOps OpsProps OpsColumns OpsMore SpecCircus SpecPopulation SpecLocal LocalFacts SpecSupply SpecLedger LedgerProps SpecRecords RecordsProps SpecNow NowProps SpecJournal
  JournalProps RowsProps SpecSafe SafeOps SafeRun GeographyLog Geography Cdr SpecCdr CdrFacts SpecCdrLogs CdrLogs CdrBooks OpRows WorldProps CdrProps SupplyFacts SndTruth SpecCdrMoves.
From Coq Require Import Permutation Sorted.

Definition moving : book := Book "mobility_logs" "A_ID" "NEW_CELL".
Definition ailing : book := Book "cell_status" "CELL_ID" "NEW_HEALTH_LEVEL".

Lemma apart_chain w x books ops : Forall (apart w x books) ops -> apart w x books (OpChain ops).
Proof.
  intros H. split.
  - intros C. cbn in C. induction H as [|o ops [Ho _] _ IH]; [exact C|]. destruct C as [C|C]; [exact (Ho C)|exact (IH C)].
  - intros b cols ex Hb P. inversion P as [|? o' Hin P']; subst. rewrite Forall_forall in H. destruct (H _ Hin) as [_ Q]. exact (Q b cols ex Hb P').
Qed.

(** Nothing but the operations of the stories about the attribute [x] and the log [id], in lists with chains. *)
Fixpoint aloof (x : nat) (id : string) (depth : nat) (o : op) : bool :=
  match o, depth with
  | OpChain ops, S depth => forallb (aloof x id depth) ops
  | _, _ => leaves x o && mute id o
  end.
Lemma aloof_apart w x b depth : forall o, aloof x (log_of b) depth o = true -> apart w (OAttribute x) [b] o.
Proof.
  assert (K : forall o, leaves x o && mute (log_of b) o = true -> apart w (OAttribute x) [b] o).
  { intros o H. apply andb_true_iff in H as [H1 H2]. split; [now apply leaves_changes|]. intros b' cols ex [<-|[]]. now apply mute_quiet. }
  induction depth as [|depth IH]; intros o H; [destruct o; apply K; exact H|].
  destruct o; try (apply K; exact H). cbn [aloof] in H. apply apart_chain. apply Forall_forall. intros o Ho. apply IH. rewrite forallb_forall in H. auto.
Qed.
Lemma aloof_all w x b ops : forallb (aloof x (log_of b) 1) ops = true -> Forall (apart w (OAttribute x) [b]) ops.
Proof. intros H. apply Forall_forall. intros o Ho. rewrite forallb_forall in H. apply (aloof_apart _ _ _ 1). auto. Qed.

Section Moves.
  Context (w0 : world) (c : cdr) (src : sources) (unhealthy healthy : nat) (subs sims cells : list val).
  Hypothesis F : cdr_circus w0 c src unhealthy healthy subs sims cells.

  Definition lists : list (list op) := [break_down_ops src unhealthy (k_health c) 1; repair_ops src healthy (k_health c); cdr_mobility c; cdr_topups c; cdr_calls c; cdr_sms c].
  Lemma cdr_story_of a s : nth_error (w_stories w0) a = Some s -> a < 6 /\
    In (a, st_field s) [(0, "CELL_ID"); (1, "CELL_ID"); (2, "A_ID"); (3, "SIM_ID"); (4, "A_ID"); (5, "A_ID")]%string /\ exists judge, st_ops s = nth a lists [] ++ [OpBack a judge].
  Proof.
    intros Es. assert (L : a < 6) by (rewrite <- (proj2 (proj2 (proj2 (cdr_numbers _ _ _ _ _ _ _ _ F)))); apply nth_error_Some; congruence). split; [exact L|].
    destruct a as [|[|[|[|[|[|a]]]]]]; [| | | | | |lia].
    - destruct (cdr_break_down _ _ _ _ _ _ _ _ F) as (s' & E' & Ef & _ & Eo). assert (s' = s) by congruence. subst s'. split; [rewrite Ef; cbn; tauto|exact Eo].
    - destruct (cdr_repair _ _ _ _ _ _ _ _ F) as (s' & E' & Ef & _ & Eo). assert (s' = s) by congruence. subst s'. split; [rewrite Ef; cbn; tauto|exact Eo].
    - destruct (cdr_moves _ _ _ _ _ _ _ _ F) as (s' & E' & Ef & _ & Eo). assert (s' = s) by congruence. subst s'. split; [rewrite Ef; cbn; tauto|exact Eo].
    - destruct (cdr_tops _ _ _ _ _ _ _ _ F) as (s' & E' & Ef & _ & Eo). assert (s' = s) by congruence. subst s'. split; [rewrite Ef; cbn; tauto|exact Eo].
    - destruct (cdr_talks _ _ _ _ _ _ _ _ F) as (s' & (E' & Ef & _ & Eo) & _). assert (s' = s) by congruence. subst s'. split; [rewrite Ef; cbn; tauto|exact Eo].
    - destruct (cdr_texts _ _ _ _ _ _ _ _ F) as (s' & (E' & Ef & _ & Eo) & _). assert (s' = s) by congruence. subst s'. split; [rewrite Ef; cbn; tauto|exact Eo].
  Qed.
  Lemma apart_attributes : Nat.eqb (k_health c) (k_cell c) = false /\ Nat.eqb (k_main_acct c) (k_cell c) = false /\ Nat.eqb (k_cell c) (k_health c) = false /\ Nat.eqb (k_main_acct c) (k_health c) = false.
  Proof. pose proof (cdr_distinct _ _ _ _ _ _ _ _ F) as N. rewrite !NoDup_cons_iff in N. cbn in N. rewrite !Nat.eqb_neq. repeat split; intros E; intuition congruence. Qed.
  Lemma aloof_stories x id a judge : (x = k_cell c /\ id = "mobility_logs" /\ a <> 2 \/ x = k_health c /\ id = "cell_status" /\ a <> 0 /\ a <> 1)%string -> a < 6 ->
    forallb (aloof x id 1) (nth a lists [] ++ [OpBack a judge]) = true.
  Proof.
    destruct apart_attributes as (N1 & N2 & N3 & N4). intros H L.
    destruct H as [(-> & -> & H)|(-> & -> & H & H')]; (destruct a as [|[|[|[|[|[|a]]]]]]; [| | | | | |lia]); try (now destruct H); try (now destruct H');
      cbn -[Nat.eqb]; rewrite ?N1, ?N2, ?N3, ?N4; reflexivity.
  Qed.

  Lemma moves_journal : single_valued w0 (k_cell c) -> journal_of w0 (k_cell c) moving.
  Proof.
    intros Sv. split; [exact Sv|]. intros a s Es. destruct (cdr_story_of a s Es) as (L & Hf & judge & Eo).
    destruct (Nat.eq_dec a 2) as [->|N]; [|apply nothing_to_enter; rewrite Eo; apply aloof_all, aloof_stories; auto].
    assert (Ef : st_field s = "A_ID"%string) by (cbn in Hf; repeat (destruct Hf as [Hf|Hf]; [injection Hf; try discriminate; auto|]); contradiction). cbn [nth lists] in Eo.
    apply (one_to_enter _ _ _ _ _ (firstn 2 (cdr_mobility c)) (OpAttrUpdate (k_cell c) "A_ID" "NEW_CELL") [OpTimestamp "TIME" true (k_fmt c)]
      (OpFieldLogger "mobility_logs" ["TIME"; "A_ID"; "PREV_CELL"; "NEW_CELL"]%string []) [OpBack 2 judge] moving ["A_ID"; "PREV_CELL"; "NEW_CELL"]%string [] ["A_ID"; "PREV_CELL"; "NEW_CELL"; "TIME"]%string).
    - rewrite Eo. reflexivity.
    - apply aloof_all. reflexivity.
    - rewrite Ef. cbn [firstn cdr_mobility].
      apply (widens_by _ _ _ ["PREV_CELL"%string]); [reflexivity|repeat constructor; intros []|cbn; intuition (subst; discriminate)|now left|cbn [app]].
      apply (widens_by _ _ _ ["NEW_CELL"%string]); [reflexivity|repeat constructor; intros []|cbn; intuition (subst; discriminate)|now left|cbn [app]]. constructor.
    - constructor.
    - now left.
    - intros ? [].
    - cbn. auto.
    - cbn. auto.
    - apply (widens_by _ _ _ ["TIME"%string]); [reflexivity|repeat constructor; intros []|cbn; intuition (subst; discriminate)|now right|cbn [app]]. constructor.
    - eexists. split; [reflexivity|]. right. cbn. split; [auto|]. split; [auto 6|]. intros n; cbn. intuition.
  Qed.
  Lemma status_journal : single_valued w0 (k_health c) -> journal_of w0 (k_health c) ailing.
  Proof.
    intros Sv. split; [exact Sv|]. intros a s Es. destruct (cdr_story_of a s Es) as (L & Hf & judge & Eo).
    assert (C : a = 0 \/ a = 1 \/ a <> 0 /\ a <> 1) by lia. destruct C as [->|[->|N]]; [| |apply nothing_to_enter; rewrite Eo; apply aloof_all, aloof_stories; auto];
    (assert (Ef : st_field s = "CELL_ID"%string) by (cbn in Hf; repeat (destruct Hf as [Hf|Hf]; [injection Hf; try discriminate; auto|]); contradiction)); cbn [nth lists] in Eo.
    - apply (one_to_enter _ _ _ _ _ (firstn 1 (break_down_ops src unhealthy (k_health c) 1)) (OpAttrUpdate (k_health c) "CELL_ID" "NEW_HEALTH_LEVEL") [OpReset 1 (Some "CELL_ID"%string); OpTimestamp "TIME" true (time_format src)]
        (OpFieldLogger "cell_status" status_cols []) [OpBack 0 judge] ailing ["CELL_ID"; "NEW_HEALTH_LEVEL"]%string [] ["CELL_ID"; "NEW_HEALTH_LEVEL"; "TIME"]%string).
      + rewrite Eo. reflexivity.
      + apply aloof_all. reflexivity.
      + rewrite Ef. cbn [firstn break_down_ops].
        apply (widens_by _ _ _ ["NEW_HEALTH_LEVEL"%string]); [reflexivity|repeat constructor; intros []|cbn; intuition (subst; discriminate)|now left|cbn [app]]. constructor.
      + constructor.
      + now left.
      + intros ? [].
      + cbn. auto.
      + cbn. auto.
      + apply (widens_by _ _ _ (@nil string)); [reflexivity|repeat constructor; intros []|intros ? []|now right|cbn [app]].
        apply (widens_by _ _ _ ["TIME"%string]); [reflexivity|repeat constructor; intros []|cbn; intuition (subst; discriminate)|now right|cbn [app]]. constructor.
      + eexists. split; [reflexivity|]. right. cbn. split; [auto|]. split; [auto 6|]. intros n; cbn. intuition.
    - apply (one_to_enter _ _ _ _ _ (firstn 1 (repair_ops src healthy (k_health c))) (OpAttrUpdate (k_health c) "CELL_ID" "NEW_HEALTH_LEVEL") [OpTimestamp "TIME" true (time_format src)]
        (OpFieldLogger "cell_status" status_cols []) [OpBack 1 judge] ailing ["CELL_ID"; "NEW_HEALTH_LEVEL"]%string [] ["CELL_ID"; "NEW_HEALTH_LEVEL"; "TIME"]%string).
      + rewrite Eo. reflexivity.
      + apply aloof_all. reflexivity.
      + rewrite Ef. cbn [firstn repair_ops].
        apply (widens_by _ _ _ ["NEW_HEALTH_LEVEL"%string]); [reflexivity|repeat constructor; intros []|cbn; intuition (subst; discriminate)|now left|cbn [app]]. constructor.
      + constructor.
      + now left.
      + intros ? [].
      + cbn. auto.
      + cbn. auto.
      + apply (widens_by _ _ _ ["TIME"%string]); [reflexivity|repeat constructor; intros []|cbn; intuition (subst; discriminate)|now right|cbn [app]]. constructor.
      + eexists. split; [reflexivity|]. right. cbn. split; [auto|]. split; [auto 6|]. intros n; cbn. intuition.
  Qed.

  (** ** Loggers *)
  Lemma no_logger id ops : forallb (aloof (S (k_cell c + k_health c + k_main_acct c)) id 1) ops = true -> forall o c' ex, In o ops -> ~ part_of (OpFieldLogger id c' ex) o.
  Proof.
    intros H o c' ex Ho. rewrite forallb_forall in H. destruct (aloof_apart w0 _ (Book id "" "") 1 o (H o Ho)) as [_ Q]. exact (Q _ c' ex (or_introl eq_refl)).
  Qed.
  Lemma far : let x := S (k_cell c + k_health c + k_main_acct c) in Nat.eqb (k_health c) x = false /\ Nat.eqb (k_main_acct c) x = false /\ Nat.eqb (k_cell c) x = false.
  Proof. cbv zeta. rewrite !Nat.eqb_neq. lia. Qed.
  Lemma quiet_stories id a judge : (id = "mobility_logs" /\ a <> 2 \/ id = "cell_status" /\ a <> 0 /\ a <> 1)%string -> a < 6 ->
    forall o c' ex, In o (nth a lists [] ++ [OpBack a judge]) -> ~ part_of (OpFieldLogger id c' ex) o.
  Proof.
    intros H L. apply no_logger. destruct far as (N1 & N2 & N3).
    destruct H as [(-> & H)|(-> & H & H')]; (destruct a as [|[|[|[|[|[|a]]]]]]; [| | | | | |lia]); try (now destruct H); try (now destruct H');
      cbn -[Nat.eqb]; rewrite ?N1, ?N2, ?N3; reflexivity.
  Qed.
  Ltac up new := apply (builds_by _ _ new); [left; reflexivity|repeat constructor; intros []|cbn; intuition (subst; discriminate)| intros ? K; cbn in K |- *; intuition auto|cbn [app]].
  Lemma moves_tidy : tidy w0 "mobility_logs".
  Proof.
    intros a s Es. destruct (cdr_story_of a s Es) as (L & Hf & judge & Eo).
    destruct (Nat.eq_dec a 2) as [->|N]; [left|right; rewrite Eo; apply quiet_stories; auto].
    assert (Ef : st_field s = "A_ID"%string) by (cbn in Hf; repeat (destruct Hf as [Hf|Hf]; [injection Hf; try discriminate; auto|]); contradiction).
    rewrite Ef, Eo. eexists. cbn [nth lists cdr_mobility app]. up ["PREV_CELL"%string]. up ["NEW_CELL"%string]. up (@nil string). up ["TIME"%string]. up (@nil string). up (@nil string). apply built_up.
  Qed.
  Lemma status_tidy : tidy w0 "cell_status".
  Proof.
    intros a s Es. destruct (cdr_story_of a s Es) as (L & Hf & judge & Eo).
    assert (C : a = 0 \/ a = 1 \/ a <> 0 /\ a <> 1) by lia. destruct C as [->|[->|N]]; [left|left|right; rewrite Eo; apply quiet_stories; auto];
    (assert (Ef : st_field s = "CELL_ID"%string) by (cbn in Hf; repeat (destruct Hf as [Hf|Hf]; [injection Hf; try discriminate; auto|]); contradiction)); rewrite Ef, Eo; eexists; cbn [nth lists break_down_ops repair_ops app field_logger].
    - up ["NEW_HEALTH_LEVEL"%string]. up (@nil string). up (@nil string). up ["TIME"%string]. up (@nil string). up (@nil string). apply built_up.
    - up ["NEW_HEALTH_LEVEL"%string]. up (@nil string). up ["TIME"%string]. up (@nil string). up (@nil string). apply built_up.
  Qed.
  Lemma moves_split a s before names ex afterwards : nth_error (w_stories w0) a = Some s -> st_ops s = before ++ OpFieldLogger "mobility_logs" names ex :: afterwards ->
    a = 2 /\ st_field s = "A_ID"%string /\ before = firstn 4 (cdr_mobility c) /\ names = ["TIME"; "A_ID"; "PREV_CELL"; "NEW_CELL"]%string /\ ex = [].
  Proof.
    intros Es E. destruct (cdr_story_of a s Es) as (L & Hf & judge & Eo). destruct (Nat.eq_dec a 2) as [->|N].
    - split; [reflexivity|]. split; [cbn in Hf; repeat (destruct Hf as [Hf|Hf]; [injection Hf; try discriminate; auto|]); contradiction|]. rewrite Eo in E. cbn [nth lists] in E.
      exact (logger_at "mobility_logs" ["TIME"; "A_ID"; "PREV_CELL"; "NEW_CELL"]%string [] (firstn 4 (cdr_mobility c)) [OpBack 2 judge] _ _ _ _ E eq_refl eq_refl).
    - exfalso. refine (quiet_stories "mobility_logs" a judge (or_introl (conj eq_refl N)) L (OpFieldLogger "mobility_logs" names ex) names ex _ (part_self _)).
      rewrite <- Eo, E. apply in_or_app. right. now left.
  Qed.
  Lemma status_split a s before names ex afterwards : nth_error (w_stories w0) a = Some s -> st_ops s = before ++ OpFieldLogger "cell_status" names ex :: afterwards ->
    st_field s = "CELL_ID"%string /\ names = status_cols /\ ex = [] /\
    (a = 0 /\ before = firstn 4 (break_down_ops src unhealthy (k_health c) 1) \/ a = 1 /\ before = firstn 3 (repair_ops src healthy (k_health c))).
  Proof.
    intros Es E. destruct (cdr_story_of a s Es) as (L & Hf & judge & Eo). assert (C : a = 0 \/ a = 1 \/ a <> 0 /\ a <> 1) by lia. destruct C as [->|[->|N]].
    - split; [cbn in Hf; repeat (destruct Hf as [Hf|Hf]; [injection Hf; try discriminate; auto|]); contradiction|]. rewrite Eo in E. cbn [nth lists] in E.
      destruct (logger_at "cell_status" status_cols [] (firstn 4 (break_down_ops src unhealthy (k_health c) 1)) [OpBack 0 judge] _ _ _ _ E eq_refl eq_refl) as (-> & -> & ->). auto.
    - split; [cbn in Hf; repeat (destruct Hf as [Hf|Hf]; [injection Hf; try discriminate; auto|]); contradiction|]. rewrite Eo in E. cbn [nth lists] in E.
      destruct (logger_at "cell_status" status_cols [] (firstn 3 (repair_ops src healthy (k_health c))) [OpBack 1 judge] _ _ _ _ E eq_refl eq_refl) as (-> & -> & ->). auto.
    - exfalso. refine (quiet_stories "cell_status" a judge (or_intror (conj eq_refl N)) L (OpFieldLogger "cell_status" names ex) names ex _ (part_self _)).
      rewrite <- Eo, E. apply in_or_app. right. now left.
  Qed.
  Lemma moves_before : tells_before w0 (k_cell c) moving "PREV_CELL".
  Proof.
    split; [exact moves_tidy|]. intros a s before names ex afterwards Es E. destruct (moves_split _ _ _ _ _ _ Es E) as (-> & _ & -> & -> & ->).
    split; [reflexivity|]. split; [right; cbn; auto 8|]. destruct (proj1 (cdr_attributes _ _ _ _ _ _ _ _ F)) as (po & Hp & Hx).
    exists [], (k_subs c), "CELL"%string, [("CELL", "PREV_CELL")]%string, po, (skipn 1 (firstn 4 (cdr_mobility c))).
    split; [reflexivity|]. split; [now left|]. split; [intros o []|]. auto.
  Qed.
  Lemma moves_header : one_header w0 "mobility_logs" ["TIME"; "A_ID"; "PREV_CELL"; "NEW_CELL"]%string.
  Proof.
    left. split; [discriminate|]. intros a s o names ex Es Ho P. destruct (cdr_story_of a s Es) as (L & Hf & judge & Eo). rewrite Eo in Ho. destruct (Nat.eq_dec a 2) as [->|N].
    - cbn in Ho. decompose [or] Ho; subst; try contradiction; inversion P; subst; auto.
    - exfalso. exact (quiet_stories "mobility_logs" a judge (or_introl (conj eq_refl N)) L o names ex Ho P).
  Qed.
  Lemma status_header : one_header w0 "cell_status" status_cols.
  Proof.
    left. split; [discriminate|]. intros a s o names ex Es Ho P. destruct (cdr_story_of a s Es) as (L & Hf & judge & Eo). rewrite Eo in Ho.
    assert (C : a = 0 \/ a = 1 \/ a <> 0 /\ a <> 1) by lia. destruct C as [->|[->|N]].
    - cbn in Ho. decompose [or] Ho; subst; try contradiction; inversion P; subst; auto.
    - cbn in Ho. decompose [or] Ho; subst; try contradiction; inversion P; subst; auto.
    - exfalso. exact (quiet_stories "cell_status" a judge (or_intror (conj eq_refl N)) L o names ex Ho P).
  Qed.

  (** ** What the records tell *)
  Lemma moves_true a w l w' : since w0 w -> as_many w0 w -> single_valued w0 (k_cell c) -> execute a w = (Ok l, w') -> Forall (a_move w c) (records "mobility_logs" l).
  Proof.
    intros S M Sv H. eapply Forall_impl; [|exact (exec_now w0 w "mobility_logs" a l w' moves_tidy S H)]. intros r (s & before & ns & e & afterwards & row & k & Es & Eo & Sh & _ & T & Hin).
    destruct (story_then w0 w a S s Es) as (s0 & Es0 & St). pose proof St as (_ & _ & Tf & _ & _ & _ & _ & To & _). rewrite To in Eo.
    destruct (moves_split _ _ _ _ _ _ Es0 Eo) as (-> & Ef & -> & -> & ->). rewrite Tf, Ef in Hin. unfold a_move. rewrite !Sh by (right; cbn; tauto).
    split; [exists s; auto|]. split; [|split].
    - intros [_ Sg]. destruct (attribute_still w0 w _ _ _ S (proj1 (cdr_attributes _ _ _ _ _ _ _ _ F))) as (po & Hp & Hx).
      destruct (nth_error (w_attrs w) (k_cell c)) as [t|] eqn:Et.
      + pose proof (T [] (OpLookup (k_subs c) "A_ID" [("CELL", "PREV_CELL")]%string) _ eq_refl "CELL"%string "PREV_CELL"%string po (k_cell c) t (or_introl eq_refl) Hp Hx Et ltac:(intros o [])) as Lk.
        exists t. split; [exact Et|]. destruct (row "A_ID"%string) as [| | | |its]; cbn in Lk; try (now apply dget_In). exfalso. now apply (Sg its).
      + destruct Sv as (t & Et0 & _). apply nth_error_None in Et. assert (k_cell c < length (w_attrs w0)) by (apply nth_error_Some; congruence). unfold as_many in M. lia.
    - pose proof (T (firstn 1 (cdr_mobility c)) (OpSelectOne (k_possible_cells c) "A_ID" "NEW_CELL" false false false None) _ eq_refl) as K. cbn in K.
      destruct (K (untouched_by [OpLookup (k_subs c) "A_ID" [("CELL", "PREV_CELL")]%string] _ eq_refl)) as [K1|(_ & K1 & K2)]; auto.
    - exact (T (firstn 3 (cdr_mobility c)) (OpTimestamp "TIME" true (k_fmt c)) _ eq_refl).
  Qed.
  Lemma status_true a w l w' : since w0 w -> execute a w = (Ok l, w') -> Forall (a_status src unhealthy healthy w c) (records "cell_status" l).
  Proof.
    intros S H. eapply Forall_impl; [|exact (exec_now w0 w "cell_status" a l w' status_tidy S H)]. intros r (s & before & ns & e & afterwards & row & k & Es & Eo & Sh & _ & T & Hin).
    destruct (story_then w0 w a S s Es) as (s0 & Es0 & St). pose proof St as (_ & _ & Tf & _ & _ & _ & _ & To & _). rewrite To in Eo.
    destruct (status_split _ _ _ _ _ _ Es0 Eo) as (Ef & -> & -> & [(-> & ->)|(-> & ->)]); rewrite Tf, Ef in Hin; unfold a_status; rewrite !Sh by (right; cbn; tauto).
    - split; [left; split; [exists s; auto|]|].
      + exact (T [] (OpGenerate unhealthy "NEW_HEALTH_LEVEL" None) _ eq_refl).
      + exact (T (firstn 3 (break_down_ops src unhealthy (k_health c) 1)) (OpTimestamp "TIME" true (time_format src)) _ eq_refl).
    - split; [right; split; [exists s; auto|]|].
      + exact (T [] (OpGenerate healthy "NEW_HEALTH_LEVEL" None) _ eq_refl).
      + exact (T (firstn 2 (repair_ops src healthy (k_health c))) (OpTimestamp "TIME" true (time_format src)) _ eq_refl).
  Qed.
  Lemma told_true hs L w' : single_valued w0 (k_cell c) -> Forall reachable (w_rels w0) -> emits w0 hs L w' ->
    forall id tells, In (id, tells) [("mobility_logs", a_move); ("cell_status", a_status src unhealthy healthy)]%string ->
    exists pasts, Forall2 (true_then tells w0 c hs) pasts (records id L) /\ StronglySorted earlier pasts.
  Proof.
    intros Sv Rs H id tells Hin. destruct (history_each w0 id (fun w a r => as_many w0 w -> tells w c r)) with (hs := hs) (past := @nil happening) (L0 := @nil (string * df)) (w := w0) (L := L) (w' := w') as (pasts & K1 & K2 & _).
    - intros a w l w1 S Hx. apply Forall_forall. intros r Hr M. destruct Hin as [[= <- <-]|[[= <- <-]|[]]].
      + pose proof (moves_true a w l w1 S M Sv Hx) as K. rewrite Forall_forall in K. auto.
      + pose proof (status_true a w l w1 S Hx) as K. rewrite Forall_forall in K. auto.
    - exact (since_start w0 Rs).
    - constructor.
    - exact H.
    - exists pasts. split; [|exact K2]. eapply Forall2_weaken; [|exact K1]. intros p r (a & future & L1 & w1 & E & He & K). cbn [app] in E. exists a, future, L1, w1. split; [exact E|]. split; [exact He|].
      apply K. exact (emits_many _ _ _ _ He).
  Qed.
End Moves.

Lemma last_entry b k v L : (exists e1 e2, entries b L = e1 ++ (k, v) :: e2 /\ ~ In k (map fst e2)) <-> last_shows (who b) (what b) k v (records (log_of b) L).
Proof.
  rewrite JournalProps.entries_records. generalize (records (log_of b) L). intros rs. unfold last_shows. split.
  - intros (e1 & e2 & E & N). revert e1 E. induction rs as [|r rs IH]; intros e1 E; [destruct e1; discriminate|]. destruct e1 as [|y e1]; cbn [map app] in E.
    + injection E as <- <- E. exists [], r, rs. repeat split. intros r' Hr K. apply N. rewrite <- E, map_map. cbn [fst]. rewrite <- K. apply (in_map (fun r : record => r (who b)) _ _ Hr).
    + injection E as _ E. destruct (IH _ E) as (b1 & r1 & a1 & -> & K). exists (r :: b1), r1, a1. split; [reflexivity|exact K].
  - intros (b1 & r & a1 & -> & <- & <- & N). exists (map (fun r : record => (r (who b), r (what b))) b1), (map (fun r : record => (r (who b), r (what b))) a1). split; [rewrite map_app; reflexivity|].
    rewrite map_map. cbn [fst]. intros K. apply in_map_iff in K as (r' & K & Hr). exact (N r' Hr K).
Qed.
Lemma no_entry b k L : ~ In k (map fst (entries b L)) <-> nothing_about (who b) k (records (log_of b) L).
Proof.
  rewrite JournalProps.entries_records, map_map. cbn [fst]. unfold nothing_about. rewrite in_map_iff. split.
  - intros N r Hr E. apply N. exists r. auto.
  - intros N (r & E & Hr). exact (N r Hr E).
Qed.
