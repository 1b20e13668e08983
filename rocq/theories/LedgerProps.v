(** What the logs tell of stocks and accounts. *)
From Verif Require CircusFacts.
From Verif Require Import Base BaseFacts Rng Utils UtilsFacts Relationship RelationshipFacts SpecRelationship RelationshipProps Frame Gens Clock Attribute SpecAttribute AttributeFacts
  World Story Ops OpsFacts Fs Circus SpecStory StoryFacts StoryExec StoryProps SpecOps OpsProps OpsColumns OpsMore SpecWorld SpecPopulation PopProps PopMore
  SpecLocal LocalFacts LocalOps LocalCalls CircusProps GeographyLog SpecCircus SpecSupply SupplyFacts SupplyProps SpecLedger.
From Coq Require Import Permutation.

Lemma logs_nothing id o : (forall c ex, ~ part_of (OpFieldLogger id c ex) o) ->
  forall d w d' l w', run_op o d w = (Ok (d', l), w') -> dget id l = None.
Proof.
  intros N d w d' l w' H. destruct (dget id l) as [e|] eqn:E; [|reflexivity]. exfalso.
  pose proof (run_op_cols id ["a"%string] o ltac:(discriminate) (fun c ex K => False_ind _ (N c ex K)) _ _ _ _ _ H e E) as [K1 _].
  pose proof (run_op_cols id ["b"%string] o ltac:(discriminate) (fun c ex K => False_ind _ (N c ex K)) _ _ _ _ _ H e E) as [K2 _].
  congruence.
Qed.

Lemma listed_columns d f c : listed d f c = combine (column_of d f) (column_of d c).
Proof. unfold listed, column_of. induction (df_rows d) as [|r l IH]; cbn; [reflexivity|]. now rewrite IH. Qed.

Lemma frames_app id L1 L2 : frames_of id (L1 ++ L2) = frames_of id L1 ++ frames_of id L2.
Proof. unfold frames_of. now rewrite filter_app, map_app, filter_app. Qed.
Lemma entries_app b L1 L2 : entries b (L1 ++ L2) = entries b L1 ++ entries b L2.
Proof. unfold entries. now rewrite frames_app, flat_map_app. Qed.

Lemma entries_dict b L : NoDup (dkeys L) ->
  entries b L = match dget (log_of b) L with Some d => listed d (who b) (what b) | None => [] end.
Proof.
  intros N. unfold entries, frames_of.
  assert (E : map snd (filter (fun e : string * df => String.eqb (fst e) (log_of b)) L) = match dget (log_of b) L with Some d => [d] | None => [] end).
  { induction L as [|[k d] L IH]; [reflexivity|]. cbn in N. inversion N as [|? ? Hn Hr]; subst. cbn [filter fst dget].
    specialize (IH Hr). change (String.eqb k (log_of b)) with (keqb k (log_of b)).
    destruct (keqb_spec k (log_of b)) as [->|Nk].
    - rewrite keqb_refl. cbn [map snd].
      replace (map snd _) with (@nil df); [reflexivity|]. symmetry. rewrite IH. now rewrite (proj2 (dget_None (log_of b) L)).
    - destruct (keqb_spec (log_of b) k); [congruence|]. exact IH. }
  rewrite E. destruct (dget (log_of b) L) as [d|]; [|reflexivity]. cbn [filter].
  destruct (df_rows d) eqn:Er; [unfold listed; now rewrite Er|]. cbn [flat_map]. now rewrite app_nil_r.
Qed.

Lemma run_entries duration folder del w fs w' fs' tr :
  run duration folder del w fs = (Ok tt, (w', fs', tr)) -> startable fs folder del -> (0 < Clock.c_step (w_clock w))%Z ->
  exists hs L, emits w hs L w' /\ forall b, one_format w b -> in_file fs' folder b = entries b L.
Proof.
  intros H St Hs.
  assert (Hf : folder <> []).
  { destruct St as [(A & _)|(A & _)]; [|exact A]. intros ->. now apply root_exists in A. }
  destruct (start_spec _ _ _ _ _ _ _ H Hf Hs) as (n & fs0 & Hm & Hcl & [(_ & Hrun)|(_ & _ & E & _)]); [|easy].
  destruct (CircusFacts.run_steps_emits _ _ _ _ _ _ _ _ Hrun) as [L He].
  destruct (run_files duration folder del w fs n L w' St Hs Hm He) as (fs1 & tr1 & E & (Hold & _) & _).
  rewrite H in E. injection E as <- <-. exists (steps_of (length (w_stories w)) n), L. split; [exact He|].
  intros b (cols & Hc & Hag). pose proof (emits_cols (log_of b) cols _ _ _ _ He Hc Hag) as F.
  unfold in_file. rewrite Hold. unfold entries. destruct (aligned_content _ cols L F) as [A|[A _]].
  - rewrite A. unfold log_content in A. now destruct (frames_of (log_of b) L).
  - rewrite A, map_map. replace (map (fun x => name_of (VStr x)) cols) with cols by (symmetry; apply map_id). unfold emitted_rows. clear A. induction F as [|d l [Hd _] F IH]; [reflexivity|].
    cbn [flat_map]. rewrite map_app, IH. f_equal. unfold listed. now rewrite Hd, map_map.
Qed.

Section Books.
  Context (w0 : world) (x : object) (books : list book).

  Lemma apart_list ops : forall d l0 w d' l w', Forall (apart w0 x books) ops -> shape w0 w ->
    run_list run_op ops d l0 w = (Ok (d', l), w') ->
    same x w w' /\ shape w0 w' /\ forall b, In b books -> dget (log_of b) l = dget (log_of b) l0.
  Proof.
    induction ops as [|o ops IH]; intros d l0 w d' l w' HF Sh H.
    - cbn [run_list] in H. injection H as <- <- <-. split; [apply same_refl|]. auto.
    - inversion HF as [|? ? [N1 N2] HF']; subst.
      apply run_list_step in H as (d1 & l1 & w1 & all & H1 & M & H).
      assert (Sm : same x w w1).
      { pose proof (op_same o d w x) as K. rewrite H1 in K. cbn [snd] in K. apply K. intros C. apply N1. eapply changes_shape; [apply shape_sym; exact Sh|exact C]. }
      assert (Sh1 : shape w0 w1).
      { eapply shape_trans; [exact Sh|]. pose proof (op_shape o d w) as K. now rewrite H1 in K. }
      destruct (IH _ _ _ _ _ _ HF' Sh1 H) as (S2 & Sh2 & D). split; [eapply same_trans; eauto|]. split; [exact Sh2|].
      intros b Hb. rewrite (D b Hb). destruct (merge_logs l0 l1) as (all0 & M0 & D0). assert (all0 = all) by congruence. subst all0. rewrite D0.
      rewrite (logs_nothing (log_of b) o (fun c ex => N2 b c ex Hb) _ _ _ _ _ H1). now destruct (dget (log_of b) l0).
  Qed.

  Lemma widens_list dropping cols ops cols' : widens dropping cols ops cols' -> forall d l0 w d' l w',
    df_cols d = cols -> rectangular d -> run_list run_op ops d l0 w = (Ok (d', l), w') ->
    df_cols d' = cols' /\ rectangular d' /\
    (dropping = false -> forall c, In c cols -> In c cols' /\ column_of d' c = column_of d c).
  Proof.
    induction 1 as [cols|cols o new ops cols' A Nn Hf Hd _ IH]; intros d l0 w d' l w' Hc Rd H.
    - cbn [run_list] in H. injection H as <- <- <-. auto.
    - apply run_list_step in H as (d1 & l1 & w1 & all & H1 & M & H). subst cols.
      destruct (other_restricts _ _ _ _ _ _ _ A H1 Rd Nn Hf) as (Hc1 & kept & (_ & Rd1 & Hk) & Kd).
      destruct (IH _ _ _ _ _ _ Hc1 Rd1 H) as (Hc2 & Rd2 & H2). split; [exact Hc2|]. split; [exact Rd2|].
      intros ->. destruct Hd as [Hd|Hd]; [discriminate|]. intros c Hin. destruct (Hk c Hin) as [Hin1 E1]. rewrite Hc1 in Hin1.
      destruct (H2 eq_refl c Hin1) as [Hin2 E2]. split; [exact Hin2|]. rewrite E2, E1, (Kd Hd). reflexivity.
  Qed.

  Lemma writes_ok b cols o d w d' l w' : writes b cols o -> df_cols d = cols -> rectangular d -> In (who b) cols -> In (what b) cols ->
    run_op o d w = (Ok (d', l), w') ->
    d' = d /\ w' = w /\ exists lg, l = [(log_of b, lg)] /\ listed lg (who b) (what b) = listed d (who b) (what b).
  Proof.
    intros (names & -> & Hn) Hc Rd H1 H2 H. apply logger_data in H as (-> & -> & lg & E & ->).
    split; [reflexivity|]. split; [reflexivity|]. exists lg. split; [reflexivity|].
    destruct Hn as [-> | (I1 & I2 & I3)]; [injection E as <-; reflexivity|].
    subst cols. rewrite emit_plain in E; [|apply Rd|exact I3|intros ->; contradiction]. injection E as <-.
    unfold listed. cbn [df_cols df_rows]. rewrite map_map. apply map_ext. intros row. cbn [snd].
    assert (C : forall c, In c names -> cell names (map (cell (df_cols d) (snd row)) names) c = cell (df_cols d) (snd row) c).
    { clear. intros c. generalize (cell (df_cols d) (snd row)). intros f. induction names as [|n names IH]; [intros []|].
      intros Hin. cbn. change (String.eqb c n) with (keqb c n). destruct (keqb_spec c n) as [->|N]; [reflexivity|]. apply IH. destruct Hin; congruence. }
    now rewrite !C.
  Qed.

  Context (entered : op -> list string -> book -> Prop).
  Hypothesis entered_adds : forall o new b, entered o new b -> adds o new /\ NoDup new /\ forall id cols ex, ~ part_of (OpFieldLogger id cols ex) o.
  Hypothesis distinct : NoDup (map log_of books).

  Lemma same_book b b' : In b books -> In b' books -> log_of b = log_of b' -> b = b'.
  Proof.
    revert distinct. induction books as [|c l IH]; intros N; [intros []|]. cbn in N. inversion N as [|? ? Hn Hr]; subst.
    intros [->|H1] [->|H2] E; auto.
    - exfalso. apply Hn. rewrite E. now apply in_map.
    - exfalso. apply Hn. rewrite <- E. now apply in_map.
  Qed.

  (** One run of the operations of a story. *)
  Definition entered_once (w w' : world) (L : logs) : Prop :=
    exists o new b d1 d2 l1 w1 w2, entered o new b /\ In b books /\ rectangular d1 /\ (forall c, In c new -> ~ In c (df_cols d1)) /\
      same x w w1 /\ run_op o d1 w1 = (Ok (d2, l1), w2) /\ same x w2 w' /\
      rectangular d2 /\ entries b L = listed d2 (who b) (what b) /\
      (forall b', In b' books -> b' <> b -> entries b' L = []) /\ shape w w1.
  Definition entered_nothing (w w' : world) (L : logs) : Prop :=
    same x w w' /\ forall b, In b books -> entries b L = [].

  Lemma chain_entered s d l w w' active : keeps_books w0 x books entered s -> shape w0 w ->
    run_chain (st_ops s) (init_story_data (st_field s) active) w = (Ok (d, l), w') -> NoDup (dkeys l) ->
    entered_nothing w w' l \/ entered_once w w' l.
  Proof.
    intros K Sh H Nl. unfold run_chain in H.
    destruct K as [HF|before o between log afterwards b cols new cols' Eo HF Wb He Hb Hnew Hwho Hwhat Wt Hw].
    - left. destruct (apart_list _ _ _ _ _ _ _ HF Sh H) as (S1 & _ & D). split; [exact S1|]. intros b Hb. rewrite entries_dict by exact Nl. now rewrite (D b Hb).
    - right. apply Forall_app in HF as [HF1 HF]. apply Forall_app in HF as [HF2 HF3]. rewrite Eo in H.
      rewrite run_list_app in H. apply bindM_ok in H as ([d1 l1] & w1 & H1 & H).
      destruct (apart_list _ _ _ _ _ _ _ HF1 Sh H1) as (S1 & Sh1 & D1).
      destruct (widens_list _ _ _ _ Wb (init_story_data (st_field s) active) _ _ _ _ _ eq_refl (init_rect _ _) H1) as (Hc1 & Rd1 & _).
      apply run_list_step in H as (d2 & l2 & w2 & all2 & H2 & M2 & H).
      destruct (entered_adds _ _ _ He) as (Ad & Nn & Nl2).
      rewrite <- Hc1 in Hnew. destruct (other_restricts _ _ _ _ _ _ _ Ad H2 Rd1 Nn Hnew) as (Hc2 & kept & (_ & Rd2 & _) & _).
      assert (Sh2 : shape w0 w2).
      { eapply shape_trans; [exact Sh1|]. pose proof (op_shape o d1 w1) as K. now rewrite H2 in K. }
      rewrite run_list_app in H. apply bindM_ok in H as ([d3 l3] & w3 & H3 & H).
      destruct (apart_list _ _ _ _ _ _ _ HF2 Sh2 H3) as (S3 & Sh3 & D3).
      rewrite Hc1 in Hc2. destruct (widens_list _ _ _ _ Wt _ _ _ _ _ _ Hc2 Rd2 H3) as (Hc3 & Rd3 & Col3). specialize (Col3 eq_refl).
      apply run_list_step in H as (d4 & l4 & w4 & all4 & H4 & M4 & H).
      destruct (Col3 _ Hwho) as [Iwho Ewho]. destruct (Col3 _ Hwhat) as [Iwhat Ewhat].
      destruct (writes_ok _ _ _ _ _ _ _ _ Hw Hc3 Rd3 Iwho Iwhat H4) as (-> & -> & lg & -> & Elg).
      destruct (apart_list _ _ _ _ _ _ _ HF3 Sh3 H) as (S5 & _ & D5).
      assert (B2 : forall b', In b' books -> dget (log_of b') l3 = None).
      { intros b' Hb'. rewrite (D3 b' Hb'). destruct (merge_logs l1 l2) as (m & M & D). assert (m = all2) by congruence. subst m. rewrite D.
        rewrite (D1 b' Hb'). cbn [dget]. rewrite (logs_nothing (log_of b') o (Nl2 (log_of b')) _ _ _ _ _ H2). reflexivity. }
      assert (B4 : forall b', In b' books -> dget (log_of b') l = if keqb (log_of b') (log_of b) then Some lg else None).
      { intros b' Hb'. rewrite (D5 b' Hb'). destruct (merge_logs l3 [(log_of b, lg)]) as (m & M & D). assert (m = all4) by congruence. subst m. rewrite D.
        rewrite (B2 b' Hb'). cbn [dget]. destruct (keqb (log_of b') (log_of b)); reflexivity. }
      exists o, new, b, d1, d2, l2, w1, w2. split; [exact He|]. split; [exact Hb|]. split; [exact Rd1|]. split; [exact Hnew|]. split; [exact S1|]. split; [exact H2|].
      split; [eapply same_trans; eauto|]. split; [exact Rd2|]. split; [|split].
      + rewrite entries_dict by exact Nl. rewrite (B4 b Hb), keqb_refl, Elg, !listed_columns. now rewrite Ewho, Ewhat.
      + intros b' Hb' Ne. rewrite entries_dict by exact Nl. rewrite (B4 b' Hb'). destruct (keqb_spec (log_of b') (log_of b)) as [E|_]; [|reflexivity].
        exfalso. apply Ne. now apply same_book.
      + exact (shape_trans _ _ _ (shape_sym _ _ Sh) Sh1).
  Qed.

  Hypothesis kept : forall a s, nth_error (w_stories w0) a = Some s -> keeps_books w0 x books entered s.
  Hypothesis kind : (exists r, x = ORelationship r) \/ (exists a, x = OAttribute a) \/ (exists p, x = OPopulation p) \/ (exists g, x = OGenerator g).

  Lemma other_happening h w w' : (forall a, h <> HExec a) -> happen h w = (Ok tt, w') -> same x w w'.
  Proof.
    intros N H. pose proof (happening_same h w x) as K. rewrite H in K. apply K.
    destruct kind as [[r ->]|[[a ->]|[[p ->]|[g ->]]]]; destruct h as [b| |b ids|b ids|b ids states|b ids]; cbn [happening_changes]; try discriminate;
      try (now specialize (N b)); try (intros [C|(t & _ & C)]; discriminate); try (intros [C|(s & _ & C)]; discriminate).
  Qed.

  Definition books_inv (w : world) : Prop := shape w0 w /\ stories_rel (fun _ => static) w0 w.
  Lemma books_inv_step h w : books_inv w -> books_inv (snd (happen h w)).
  Proof.
    intros [Sh St]. split.
    - eapply shape_trans; [exact Sh|]. apply (happening_local (fun _ => True) (fun _ => True) h w w); auto. intros y _. apply same_refl.
    - eapply (sr_trans (fun _ => static)); [|exact St|apply happen_static]. intros; eapply static_trans; eauto.
  Qed.

  Lemma exec_entered a w l w' : books_inv w -> execute a w = (Ok l, w') -> entered_nothing w w' l \/ entered_once w w' l.
  Proof.
    intros [Sh [Hl St]] H. pose proof (CircusFacts.execute_nodup _ _ _ _ H) as Nl. pose proof H as H0. apply execute_ok in H as (s & Es & H).
    assert (exists s0, nth_error (w_stories w0) a = Some s0) as [s0 Es0].
    { destruct (nth_error (w_stories w0) a) eqn:E; [eauto|]. apply nth_error_None in E. assert (a < length (w_stories w)) by (apply nth_error_Some; congruence). lia. }
    destruct (St a s0 Es0) as (s' & Es' & T). rewrite Es in Es'. injection Es' as <-. pose proof T as (_ & _ & Tf & _ & _ & _ & _ & To & _).
    assert (Kb : keeps_books w0 x books entered s).
    { destruct (kept a s0 Es0) as [HF|before o between log afterwards b cols new cols' Eo HF Wb He Hb Hnew Hwho Hwhat Wt Hw].
      - apply nothing_to_enter. now rewrite To.
      - eapply one_to_enter; eauto; [now rewrite To|now rewrite Tf]. }
    assert (Sf : same x w (unforced a s w)) by (destruct kind as [[r ->]|[[b ->]|[[p ->]|[g ->]]]]; reflexivity).
    assert (Tick : forall ids v v', story_tick a ids v = (Ok tt, v') -> same x v v').
    { intros ids v v' K. apply (other_happening (HTick a ids)); [discriminate|exact K]. }
    assert (Reset : forall ids v v', story_reset a ids v = (Ok tt, v') -> same x v v').
    { intros ids v v' K. apply (other_happening (HReset a ids)); [discriminate|exact K]. }
    destruct H as [(_ & -> & H)|(_ & d & w1 & w2 & H1 & H2 & H3)].
    - left. split; [eapply same_trans; [exact Sf|eapply Tick; exact H]|]. reflexivity.
    - assert (Shf : shape w0 (unforced a s w)).
      { eapply shape_trans; [exact Sh|]. apply (put_story_local (fun _ => True) (fun _ => True) a s (with_forced s []) w w Logic.I Es eq_refl). intros y _. apply same_refl. }
      assert (S2 : same x w1 w2) by (destruct (st_auto s); [eapply Reset|eapply Tick]; exact H2).
      assert (S3 : same x w1 w') by (eapply same_trans; [exact S2|eapply Tick; exact H3]).
      destruct (chain_entered _ _ _ _ _ _ Kb Shf H1 Nl) as [[S1 E]|(o & new & b & d1 & d2 & l1 & v1 & v2 & A1 & A2 & A3 & A4 & A5 & A6 & A7 & A8 & A9 & A10 & A11)].
      + left. split; [|exact E]. eapply same_trans; [exact Sf|]. eapply same_trans; eauto.
      + right. exists o, new, b, d1, d2, l1, v1, v2. split; [exact A1|]. split; [exact A2|]. split; [exact A3|]. split; [exact A4|].
        split; [eapply same_trans; eauto|]. split; [exact A6|]. split; [eapply same_trans; eauto|]. split; [exact A8|]. split; [exact A9|]. split; [exact A10|].
        eapply shape_trans; [|exact A11]. exact (shape_trans _ _ _ (shape_sym _ _ Sh) Shf).
  Qed.

  (** Whole histories, for any relation closed under what the operations do. *)
  Context (P : world -> logs -> world -> Prop).
  Lemma emits_entered :
    (forall w w', same x w w' -> P w [] w') ->
    (forall w L1 w1 L2 w2, P w L1 w1 -> P w1 L2 w2 -> P w (L1 ++ L2) w2) ->
    (forall w L L' w', (forall b, In b books -> entries b L = entries b L') -> P w L w' -> P w L' w') ->
    (forall w L w', entered_once w w' L -> P w L w') ->
    forall hs w L w', books_inv w -> emits w hs L w' -> P w L w'.
  Proof.
    intros P0 Pt Pe P1. induction hs as [|h hs IH]; intros w L w' I H.
    - inversion H; subst. apply P0, same_refl.
    - inversion H as [|y1 a l w1 y5 L' y7 Hx He|y1 y2 w1 y4 y5 y6 Hno Hh He]; subst.
      + pose proof (books_inv_step (HExec a) w I) as I1. cbn [happen] in I1. rewrite Hx in I1. cbn [snd] in I1.
        apply (Pt _ l w1); [|exact (IH _ _ _ I1 He)].
        destruct (exec_entered _ _ _ _ I Hx) as [[S1 E]|E]; [|now apply P1]. apply (Pe _ []); [intros b Hb; now rewrite (E b Hb)|now apply P0].
      + pose proof (books_inv_step h w I) as I1. rewrite Hh in I1. cbn [snd] in I1.
        apply (Pt w [] w1 L w'); [|exact (IH _ _ _ I1 He)]. apply P0. eapply other_happening; eauto.
  Qed.
End Books.

(** ** Stocks *)
Lemma trade_adds r sales deliveries bulk o new b : trade r sales deliveries bulk o new b ->
  adds o new /\ NoDup new /\ forall id cols ex, ~ part_of (OpFieldLogger id cols ex) o.
Proof.
  intros T. destruct T; (split; [reflexivity|]; split; [repeat constructor; intros []|]; intros id cols ex K; inversion K).
Qed.

Lemma get_col_In d c s : get_col d c = Ok s -> In c (df_cols d).
Proof.
  unfold get_col, col_pos. intros H. apply bind_ok in H as (i & E & _).
  destruct (find_col c (df_cols d)) as [j|] eqn:F; [|discriminate].
  apply find_col_nth in F. eapply nth_error_In. exact F.
Qed.
Lemma select_one_source r f c oto pop discard wt d w d' l w' :
  run_op (OpSelectOne r f c oto pop discard wt) d w = (Ok (d', l), w') -> In f (df_cols d).
Proof.
  cbn [run_op]. unfold transformed. intros H. mstep H. mstep E. apply lift_ok in E0 as [E0 _]. eapply get_col_In. exact E0.
Qed.

Lemma adds_cells_listed d d' f name kept vs : adds_cells d d' name kept vs -> rectangular d -> In f (df_cols d) -> ~ In name (df_cols d) ->
  listed d' f name = combine (map (fun row => cell (df_cols d) (snd row) f) kept) vs.
Proof.
  intros A R Hf Hn. rewrite listed_columns, (adds_cells_column _ _ _ _ _ A R Hn). f_equal.
  pose proof A as (Hc & Hs & Hl & Hr). unfold column_of. rewrite Hc, Hr, map_map. cbn [fst snd].
  assert (Lk : forall row, In row kept -> length (snd row) = length (df_cols d)) by (intros row H; apply R; eapply sublist_In; eauto).
  clear A Hs Hr. revert vs Hl. induction kept as [|row kept IH]; intros [|v vs] Hl; cbn [combine map] in *; try discriminate; [reflexivity|].
  rewrite IH; [|intros; apply Lk; now right|now injection Hl]. f_equal. cbn [fst snd]. apply cell_app_l; [exact Hf|]. apply Lk. now left.
Qed.

Section Stock.
  Context (r : nat) (sales deliveries bulk : book).
  Let books := [sales; deliveries; bulk].
  Definition rel_there (w : world) : Prop := exists rel, nth_error (w_rels w) r = Some rel /\ reachable rel.
  Definition delivered (L : logs) : list (val * val) := entries deliveries L ++ unpacked (entries bulk L).

  Definition balanced (w : world) (L : logs) (w' : world) : Prop :=
    rel_there w -> ~ In VNA (map snd (pairs_of w r)) -> ~ In VNA (map snd (delivered L)) ->
    rel_there w' /\ ~ In VNA (map snd (pairs_of w' r)) /\
    Permutation (pairs_of w r ++ delivered L) (pairs_of w' r ++ actual (entries sales L)).

  Lemma pairs_same w w' : same (ORelationship r) w w' -> pairs_of w' r = pairs_of w r.
  Proof. cbn. unfold pairs_of. now intros ->. Qed.
  Lemma there_same w w' : same (ORelationship r) w w' -> rel_there w -> rel_there w'.
  Proof. cbn. unfold rel_there. now intros ->. Qed.
  Lemma delivered_app L1 L2 : Permutation (delivered (L1 ++ L2)) (delivered L1 ++ delivered L2).
  Proof.
    unfold delivered. rewrite !entries_app. unfold unpacked. rewrite flat_map_app, <- !app_assoc. apply Permutation_app_head.
    rewrite !app_assoc. apply Permutation_app_tail, Permutation_app_comm.
  Qed.
  Lemma actual_app l m : actual (l ++ m) = actual l ++ actual m.
  Proof. apply filter_app. Qed.

  Lemma no_na_after w w' L : ~ In VNA (map snd (pairs_of w r)) -> ~ In VNA (map snd (delivered L)) ->
    Permutation (pairs_of w r ++ delivered L) (pairs_of w' r ++ actual (entries sales L)) -> ~ In VNA (map snd (pairs_of w' r)).
  Proof.
    intros N1 N2 P K. apply (Permutation_map snd) in P. rewrite !map_app in P.
    assert (K1 : In VNA (map snd (pairs_of w r) ++ map snd (delivered L))) by (apply (Permutation_in _ (Permutation_sym P)), in_or_app; now left).
    apply in_app_or in K1. tauto.
  Qed.

  Lemma balanced_same w w' : same (ORelationship r) w w' -> balanced w [] w'.
  Proof.
    intros S1 R N _. rewrite (pairs_same _ _ S1). split; [now apply (there_same w)|]. split; [exact N|]. apply Permutation_refl.
  Qed.
  Lemma balanced_trans w L1 w1 L2 w2 : balanced w L1 w1 -> balanced w1 L2 w2 -> balanced w (L1 ++ L2) w2.
  Proof.
    intros B1 B2 R N Nd.
    assert (N12 : ~ In VNA (map snd (delivered L1)) /\ ~ In VNA (map snd (delivered L2))).
    { split; intros K; apply Nd; apply (Permutation_in _ (Permutation_map snd (Permutation_sym (delivered_app L1 L2)))); rewrite map_app; apply in_or_app; auto. }
    destruct N12 as [N1 N2]. destruct (B1 R N N1) as (R1 & Na1 & P1). destruct (B2 R1 Na1 N2) as (R2 & Na2 & P2).
    split; [exact R2|]. split; [exact Na2|]. rewrite entries_app, actual_app, delivered_app, app_assoc, P1, <- app_assoc.
    rewrite (Permutation_app_comm (actual (entries sales L1))), app_assoc, P2, <- app_assoc. apply Permutation_app_head, Permutation_app_comm.
  Qed.
  Lemma balanced_ext w L L' w' : (forall b, In b books -> entries b L = entries b L') -> balanced w L w' -> balanced w L' w'.
  Proof.
    intros E. unfold balanced, delivered. rewrite (E sales), (E deliveries), (E bulk); [auto|cbn; auto..].
  Qed.

  Hypothesis distinct : NoDup (map log_of books).
  Lemma books_differ : sales <> deliveries /\ sales <> bulk /\ deliveries <> bulk.
  Proof.
    cbn in distinct. inversion distinct as [|? ? H1 H2]; subst. inversion H2 as [|? ? H3 _]; subst. cbn in H1, H3.
    repeat split; intros ->; tauto.
  Qed.

  Lemma balanced_once w L w' : entered_once (ORelationship r) books (trade r sales deliveries bulk) w w' L -> balanced w L w'.
  Proof.
    intros (o & new & b & d1 & d2 & l1 & w1 & w2 & T & Hb & Rd & Hnew & S1 & H & S2 & Rd2 & Eb & Eo & _) (rel & Hr & Hreach) Na Nd.
    destruct books_differ as (D1 & D2 & D3).
    assert (Hr1 : nth_error (w_rels w1) r = Some rel) by (rewrite <- Hr; exact S1).
    assert (Ep : pairs_of w r = map fst (stored rel)) by (unfold pairs_of; now rewrite Hr).
    destruct T as [discard weights| |].
    - pose proof (select_one_source _ _ _ _ _ _ _ _ _ _ _ _ H) as Hf. specialize (Hnew _ (or_introl eq_refl)).
      destruct (select_one_op _ _ _ _ _ _ _ _ _ _ _ _ _ H Hr1 Hreach Hnew) as (rel' & kept & tos & Ew & _ & A & _ & _ & _ & _ & Hpop).
      assert (Nt : no_na_tos rel).
      { intros f t q K ->. apply Na. rewrite Ep, map_map. apply in_map_iff. now exists (f, VNA, q). }
      destruct (Hpop eq_refl Nt (or_introl eq_refl)) as (gone & G1 & G2). clear Hpop.
      assert (Ed : delivered L = []).
      { unfold delivered. rewrite (Eo deliveries), (Eo bulk); [reflexivity|cbn; auto..]. }
      assert (Hr2 : nth_error (w_rels w') r = Some rel').
      { rewrite S2, Ew. cbn [w_rels set_rels]. rewrite nth_error_set_nth, Nat.eqb_refl, Hr1. reflexivity. }
      assert (Ep' : pairs_of w' r = map fst (stored rel')) by (unfold pairs_of; now rewrite Hr2).
      assert (P : Permutation (pairs_of w r ++ delivered L) (pairs_of w' r ++ actual (entries sales L))).
      { rewrite Ed, app_nil_r, Ep, Ep', Eb, (adds_cells_listed _ _ _ _ _ _ A Rd Hf Hnew). unfold actual.
        rewrite (Permutation_map fst G1), map_app. apply Permutation_app_head. exact G2. }
      split; [|split; [exact (no_na_after _ _ _ Na Nd P)|exact P]].
      exists rel'. split; [exact Hr2|]. pose proof (op_rels [r] (OpSelectOne r (who sales) (what sales) true true discard weights) d1 w1) as K. rewrite H in K. cbn [snd] in K.
      edestruct K with (r := r) as (rel2 & E2 & R2).
      + intros r1 [<-|[]]. eauto.
      + now left.
      + rewrite Ew in E2. cbn [w_rels set_rels] in E2. rewrite nth_error_set_nth, Nat.eqb_refl, Hr1 in E2. now injection E2 as ->.
    - destruct (rel_add_op _ _ _ _ _ _ _ _ _ H Hr1 Hreach) as (rel' & Ew & G).
      destruct (side_effect_data (OpRelAdd r (who deliveries) (what deliveries)) _ _ _ _ _ eq_refl H) as [-> _].
      assert (Hr2 : nth_error (w_rels w2) r = Some rel') by (rewrite Ew, nth_error_set_nth, Nat.eqb_refl, Hr1; reflexivity).
      assert (Hr' : nth_error (w_rels w') r = Some rel') by (rewrite <- Hr2; exact S2).
      assert (Ep' : pairs_of w' r = map fst (stored rel')) by (unfold pairs_of; now rewrite Hr').
      assert (P : Permutation (pairs_of w r ++ delivered L) (pairs_of w' r ++ actual (entries sales L))).
      { unfold delivered. rewrite (Eo sales), (Eo bulk); [|cbn; auto..]. cbn [actual unpacked filter flat_map]. rewrite !app_nil_r, Ep, Ep', Eb.
        rewrite (Permutation_map fst G), map_app. apply Permutation_app_head. rewrite map_map. apply Permutation_refl. }
      split; [|split; [exact (no_na_after _ _ _ Na Nd P)|exact P]].
      exists rel'. split; [exact Hr'|]. pose proof (op_rels [r] (OpRelAdd r (who deliveries) (what deliveries)) d1 w1) as K. rewrite H in K. cbn [snd] in K.
      edestruct K with (r := r) as (rel2 & E2 & R2); [intros r1 [<-|[]]; eauto|now left|congruence].
    - destruct (rel_add_grouped_op _ _ _ _ _ _ _ _ _ H Hr1 Hreach) as (rel' & Ew & G).
      destruct (side_effect_data (OpRelAddGrouped r (who bulk) (what bulk)) _ _ _ _ _ eq_refl H) as [-> _].
      assert (Hr2 : nth_error (w_rels w2) r = Some rel') by (rewrite Ew, nth_error_set_nth, Nat.eqb_refl, Hr1; reflexivity).
      assert (Hr' : nth_error (w_rels w') r = Some rel') by (rewrite <- Hr2; exact S2).
      assert (Ep' : pairs_of w' r = map fst (stored rel')) by (unfold pairs_of; now rewrite Hr').
      assert (P : Permutation (pairs_of w r ++ delivered L) (pairs_of w' r ++ actual (entries sales L))).
      { unfold delivered. rewrite (Eo sales), (Eo deliveries); [|cbn; auto..]. cbn [actual filter app]. rewrite !app_nil_r, Ep, Ep', Eb.
        rewrite (Permutation_map fst G), map_app. apply Permutation_app_head. unfold unpacked, listed. clear.
        induction (df_rows d1) as [|row rows IH]; cbn [flat_map map]; [apply Permutation_refl|]. rewrite map_app. apply Permutation_app; [|exact IH].
        cbn [fst snd]. rewrite map_map. apply Permutation_refl. }
      split; [|split; [exact (no_na_after _ _ _ Na Nd P)|exact P]].
      exists rel'. split; [exact Hr'|]. pose proof (op_rels [r] (OpRelAddGrouped r (who bulk) (what bulk)) d1 w1) as K. rewrite H in K. cbn [snd] in K.
      edestruct K with (r := r) as (rel2 & E2 & R2); [intros r1 [<-|[]]; eauto|now left|congruence].
  Qed.
End Stock.

Lemma books_inv_start w : books_inv w w.
Proof. split; [apply shape_refl|]. apply sr_refl. intros; apply static_refl. Qed.

Lemma stock_ledger w r sales deliveries bulk hs L w' : stock_books w r sales deliveries bulk -> emits w hs L w' ->
  ~ In VNA (map snd (pairs_of w r)) -> ~ In VNA (map snd (entries deliveries L ++ unpacked (entries bulk L))) ->
  Permutation (pairs_of w r ++ entries deliveries L ++ unpacked (entries bulk L)) (pairs_of w' r ++ actual (entries sales L)).
Proof.
  intros (Nd & R & Kb) H N1 N2.
  assert (B : balanced r sales deliveries bulk w L w').
  { refine (emits_entered w (ORelationship r) [sales; deliveries; bulk] (trade r sales deliveries bulk) (trade_adds r sales deliveries bulk) Nd Kb _
      (balanced r sales deliveries bulk) (balanced_same r sales deliveries bulk) (balanced_trans r sales deliveries bulk) (balanced_ext r sales deliveries bulk)
      _ hs w L w' (books_inv_start w) H); [left; eauto|]. intros v l v'. now apply balanced_once. }
  destruct (B R N1 N2) as (_ & _ & P). exact P.
Qed.

(** ** Accounts *)
Lemma posting_adds a credits debits o new b : posting a credits debits o new b ->
  adds o new /\ NoDup new /\ forall id cols ex, ~ part_of (OpFieldLogger id cols ex) o.
Proof. intros T. destruct T; (split; [reflexivity|]; split; [constructor|]; intros id cols ex K; inversion K). Qed.

Lemma total_app k l m : total k (l ++ m) = (total k l + total k m)%Qc.
Proof.
  induction l as [|[k' v] l IH]; cbn [app]; [unfold total at 2; cbn; ring|].
  change (total k ((k', v) :: l ++ m)) with (match v with VNum q => if val_eqb k' k then (q + total k (l ++ m))%Qc else total k (l ++ m) | _ => total k (l ++ m) end).
  change (total k ((k', v) :: l)) with (match v with VNum q => if val_eqb k' k then (q + total k l)%Qc else total k l | _ => total k l end).
  rewrite IH. destruct v; try reflexivity. destruct (val_eqb k' k); ring.
Qed.

Lemma add_keeps_single a idf added sub d w d' l w' : run_op (OpAttrAdd a idf added sub) d w = (Ok (d', l), w') ->
  single_valued w a -> single_valued w' a.
Proof.
  cbn [run_op]. intros H (t & Ht & Nd). unfold side_effect in H. mstep H. injection H as <- <- ->.
  unfold if_rows in E. destruct (df_rows d) as [|r0 rs]; [injection E as _ <-; now exists t|].
  mstep E. apply lift_ok in E0 as [E0 ->]. mstep E. apply lift_ok in E1 as [E1 ->]. mstep E. apply lift_ok in E2 as [E2 ->].
  mstep E. apply deref_ok in E3 as [E3 ->]. mstep E. apply lift_ok in E4 as [E4 ->]. injection E as _ <-.
  assert (x3 = t) by congruence; subst x3. destruct (attr_add_ok _ _ _ _ E4) as [Ek _].
  eexists. split; [cbn [w_attrs set_attrs]; rewrite nth_error_set_nth, Nat.eqb_refl, Ht; reflexivity|].
  change (NoDup (dkeys x4)). rewrite Ek. exact Nd.
Qed.

Section Account.
  Context (a : nat) (credits debits : book).
  Let books := [credits; debits].

  Definition reconciled (w : world) (L : logs) (w' : world) : Prop :=
    single_valued w a -> single_valued w' a /\
    (forall k x, k <> VNA -> holds w a k (VNum x) ->
       holds w' a k (VNum (x + total k (entries credits L) - total k (entries debits L))%Qc)) /\
    (forall k, k <> VNA -> ~ In k (map fst (entries credits L ++ entries debits L)) -> forall v, holds w' a k v <-> holds w a k v).

  Lemma reconciled_same w w' : same (OAttribute a) w w' -> reconciled w [] w'.
  Proof.
    intros E Sv. cbn in E. assert (Hh : forall k v, holds w' a k v <-> holds w a k v) by (intros; unfold holds; now rewrite E).
    split; [unfold single_valued; now rewrite E|]. split; [|auto]. intros k x _ Hx. apply Hh. unfold total. cbn. now replace (x + _ - _)%Qc with x by ring.
  Qed.
  Lemma reconciled_trans w L1 w1 L2 w2 : reconciled w L1 w1 -> reconciled w1 L2 w2 -> reconciled w (L1 ++ L2) w2.
  Proof.
    intros B1 B2 Sv. destruct (B1 Sv) as (S1 & V1 & O1). destruct (B2 S1) as (S2 & V2 & O2). split; [exact S2|]. split.
    - intros k x Hk Hx. rewrite !entries_app, !total_app. specialize (V2 k _ Hk (V1 k x Hk Hx)).
      replace (x + (total k (entries credits L1) + total k (entries credits L2)) - (total k (entries debits L1) + total k (entries debits L2)))%Qc
        with (x + total k (entries credits L1) - total k (entries debits L1) + total k (entries credits L2) - total k (entries debits L2))%Qc by ring. exact V2.
    - intros k Hk Hn v. rewrite !entries_app, !map_app in Hn. rewrite O2, O1; [reflexivity|exact Hk| |exact Hk|];
        rewrite map_app; intros K; apply Hn; repeat rewrite in_app_iff; apply in_app_or in K; tauto.
  Qed.
  Lemma reconciled_ext w L L' w' : (forall b, In b books -> entries b L = entries b L') -> reconciled w L w' -> reconciled w L' w'.
  Proof. intros E. unfold reconciled. rewrite (E credits), (E debits); [auto|cbn; auto..]. Qed.

  Hypothesis distinct : log_of credits <> log_of debits.

  Lemma reconciled_once w L w' : entered_once (OAttribute a) books (posting a credits debits) w w' L -> reconciled w L w'.
  Proof.
    intros (o & new & b & d1 & d2 & l1 & w1 & w2 & T & Hb & Rd & Hnew & S1 & H & S2 & Rd2 & Eb & Eo & _) Sv.
    assert (Ne : credits <> debits) by (intros ->; now apply distinct).
    assert (Sv1 : single_valued w1 a) by (unfold single_valued; rewrite S1; exact Sv).
    assert (Hh1 : forall k v, holds w1 a k v <-> holds w a k v) by (intros; unfold holds; now rewrite S1).
    assert (Hh2 : forall k v, holds w' a k v <-> holds w2 a k v) by (intros; unfold holds; now rewrite S2).
    assert (Sv2 : single_valued w' a).
    { unfold single_valued. rewrite S2. destruct T; exact (add_keeps_single _ _ _ _ _ _ _ _ _ H Sv1). }
    destruct T.
    - destruct (add_op _ _ _ _ _ _ _ _ _ H Sv1) as (-> & _ & _ & V & O). rewrite (Eo debits) by (cbn; auto). rewrite Eb.
      split; [exact Sv2|]. split.
      + intros k x Hk Hx. apply Hh2. apply Hh1 in Hx. specialize (V k x Hk Hx). cbn in V. unfold total at 2. cbn [fold_right].
        now replace (x + total k (listed d1 (who credits) (what credits)) - Q2Qc 0)%Qc with (x + total k (listed d1 (who credits) (what credits)))%Qc by ring.
      + intros k Hk Hn v. rewrite Hh2, <- Hh1. apply O; [exact Hk|]. now rewrite app_nil_r in Hn.
    - destruct (add_op _ _ _ _ _ _ _ _ _ H Sv1) as (-> & _ & _ & V & O). rewrite (Eo credits) by (cbn; auto). rewrite Eb.
      split; [exact Sv2|]. split.
      + intros k x Hk Hx. apply Hh2. apply Hh1 in Hx. specialize (V k x Hk Hx). cbn in V. unfold total at 1. cbn [fold_right].
        now replace (x + Q2Qc 0 - total k (listed d1 (who debits) (what debits)))%Qc with (x - total k (listed d1 (who debits) (what debits)))%Qc by ring.
      + intros k Hk Hn v. rewrite Hh2, <- Hh1. apply O; [exact Hk|exact Hn].
  Qed.
End Account.

Lemma account_ledger w a credits debits hs L w' : account_books w a credits debits -> emits w hs L w' ->
  (forall k x, k <> VNA -> holds w a k (VNum x) ->
     holds w' a k (VNum (x + total k (entries credits L) - total k (entries debits L))%Qc)) /\
  (forall k, k <> VNA -> ~ In k (map fst (entries credits L ++ entries debits L)) -> forall v, holds w' a k v <-> holds w a k v).
Proof.
  intros (Nd & Sv & Kb) H.
  assert (Nd2 : NoDup (map log_of [credits; debits])) by (cbn; repeat constructor; cbn; intuition).
  assert (B : reconciled a credits debits w L w').
  { refine (emits_entered w (OAttribute a) [credits; debits] (posting a credits debits) (posting_adds a credits debits) Nd2 Kb _
      (reconciled a credits debits) (reconciled_same a credits debits) (reconciled_trans a credits debits) (reconciled_ext a credits debits)
      _ hs w L w' (books_inv_start w) H); [right; eauto|]. intros v l v'. now apply reconciled_once. }
  exact (proj2 (B Sv)).
Qed.
