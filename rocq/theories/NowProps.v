(** What the records tell was true when they were logged. *)
From Verif Require CircusFacts.
From Verif Require Import Base BaseFacts Rng Utils UtilsFacts Relationship RelationshipFacts SpecRelationship RelationshipProps Frame Gens Clock SpecClock ClockProps
  Attribute SpecAttribute AttributeFacts World Story Ops OpsFacts Fs Helpers HelpersFacts Circus SpecStory StoryFacts StoryExec StoryProps SpecOps OpsProps OpsColumns OpsMore
  SpecWorld WorldProps SpecPopulation GensKept SpecLocal LocalFacts LocalOps LocalCalls CircusProps GeographyLog SpecCircus SpecSupply SupplyFacts SupplyProps
  SpecLedger LedgerProps SpecRecords RecordsGens RecordsProps SpecNow.
From Coq Require Import Permutation Sorted.

Section Now.
  Context (w0 : world) (id : string) (a : nat) (s0 : story) (Es0 : nth_error (w_stories w0) a = Some s0).
  Let date : Z := c_date (w_clock w0).

  Lemma now_ext r r' : (forall c, r' c = r c) -> told_now w0 id a r -> told_now w0 id a r'.
  Proof.
    intros E (s & before & names & ex & afterwards & row & k & H1 & H2 & H3 & H4). exists s, before, names, ex, afterwards, row, k.
    split; [exact H1|]. split; [exact H2|]. split; [|exact H4]. intros c Hc. rewrite E. now apply H3.
  Qed.

  Definition all_now (x : option df) : Prop := forall lg row, x = Some lg -> In row (df_rows lg) -> told_now w0 id a (row_of lg row).

  Lemma appended_now x y z : appended x y z -> all_now x -> all_now y -> all_now z.
  Proof.
    intros A Hx Hy. destruct x as [u|]; [|cbn in A; now subst z]. destruct y as [v|]; [|cbn in A; now subst z].
    destruct A as (c & -> & _ & Hl & Hc). intros lg row [= <-] Hin. apply In_nth_error in Hin as [k Hk].
    assert (Lk : k < length (df_rows c)) by (apply nth_error_Some; congruence).
    assert (Ec : forall n, Some (row_of c row n) = nth_error (column_of u n ++ column_of v n) k).
    { intros n. rewrite <- Hc. unfold column_of. rewrite nth_error_map, Hk. reflexivity. }
    assert (La : forall n, length (column_of u n) = length (df_rows u)) by (intros; apply map_length).
    destruct (Nat.lt_ge_cases k (length (df_rows u))) as [K|K].
    - destruct (nth_error (df_rows u) k) as [ra|] eqn:Ea; [|apply nth_error_None in Ea; lia].
      apply (now_ext (row_of u ra)); [|eapply Hx; [reflexivity|]; eapply nth_error_In; eauto]. intros n. specialize (Ec n).
      rewrite nth_error_app1 in Ec by (rewrite La; exact K). unfold column_of in Ec. rewrite nth_error_map, Ea in Ec. cbn in Ec. now injection Ec.
    - destruct (nth_error (df_rows v) (k - length (df_rows u))) as [rb|] eqn:Eb; [|apply nth_error_None in Eb; lia].
      apply (now_ext (row_of v rb)); [|eapply Hy; [reflexivity|]; eapply nth_error_In; eauto]. intros n. specialize (Ec n).
      rewrite nth_error_app2 in Ec by (rewrite La; exact K). rewrite La in Ec. unfold column_of in Ec. rewrite nth_error_map, Eb in Ec. cbn in Ec. now injection Ec.
  Qed.

  Definition row_now (before : list op) (r : record) : Prop :=
    (forall earlier o later, before = earlier ++ o :: later -> tells_now w0 earlier o r) /\ In (r (st_field s0)) (due_members s0).

  Definition held_after (before : list op) : world -> Prop := held w0 (untouched_relationship before) (untouched_attribute w0 before).
  Lemma held_next before o d w d' l w' : held_after before w -> run_op o d w = (Ok (d', l), w') -> held_after (before ++ [o]) w'.
  Proof.
    intros S H. unfold held_after.
    assert (S' : held w0 (untouched_relationship (before ++ [o])) (untouched_attribute w0 (before ++ [o])) w).
    { eapply held_weaken; [| |exact S].
      - intros r Hr o1 o2 Hin. apply Hr. apply in_or_app. now left.
      - intros x Hx o1 Hin. apply Hx. apply in_or_app. now left. }
    refine (proj1 (op_held w0 _ _ o d w d' l w' _ S' H)). split.
    - intros r Hr o' P. eapply Hr; [|exact P]. apply in_or_app. right. now left.
    - intros x Hx. apply Hx. apply in_or_app. right. now left.
  Qed.

  Lemma split_last {A} (before earlier later : list A) o o' : before ++ [o] = earlier ++ o' :: later ->
    (later = [] /\ earlier = before /\ o' = o) \/ exists later', later = later' ++ [o] /\ before = earlier ++ o' :: later'.
  Proof.
    intros E. destruct later as [|x later _] using rev_ind.
    - left. apply app_inj_tail in E as [-> ->]. auto.
    - right. exists later. change (earlier ++ o' :: later ++ [x]) with (earlier ++ (o' :: later) ++ [x]) in E. rewrite app_assoc in E.
      apply app_inj_tail in E as [-> ->]. auto.
  Qed.

  Lemma ops_now cols ops cols' : builds_up cols ops cols' -> forall before d l0 w d' l w',
    st_ops s0 = before ++ ops -> Forall (fun o => exists new, brings o new /\ incl (reads o ++ new) cols) before ->
    df_cols d = cols -> In (st_field s0) cols -> rectangular d -> (forall row, In row (df_rows d) -> row_now before (row_of d row)) ->
    held_after before w -> c_date (w_clock w) = date -> all_now (dget id l0) ->
    run_list run_op ops d l0 w = (Ok (d', l), w') -> all_now (dget id l).
  Proof.
    induction 1 as [cols|cols o new ops cols' Br Nn Hf Hr _ IH]; intros before d l0 w d' l w' Eo Hb Hc Hfield Rd Hrow S Hd Ht H.
    - cbn [run_list] in H. injection H as <- <- <-. auto.
    - apply run_list_step in H as (d1 & l1 & w1 & all & H1 & M & H).
      pose proof (held_next before _ _ _ _ _ _ S H1) as S1.
      assert (Hd1 : c_date (w_clock w1) = date).
      { rewrite <- Hd. refine (proj2 (op_held w0 (fun _ => False) (fun _ => False) o d w d1 l1 w1 _ _ H1)); [split; intros ? []|].
        eapply held_weaken; [| |exact S]; intros ? []. }
      rewrite <- Hc in Hf, Hr.
      assert (Ne : df_cols d <> []) by (rewrite Hc; intros K; rewrite K in Hfield; destruct Hfield).
      destruct (brings_rows _ _ _ _ _ _ _ Br H1 Rd Nn Hf Ne) as (Hc1 & Rd1 & Hrows).
      pose proof (op_tells_given w0 _ _ _ _ _ _ _ _ _ _ Br S Hd H1 Rd Nn Hf Hr) as T.
      refine (IH (before ++ [o]) d1 all w1 d' l w' _ _ _ _ Rd1 _ S1 Hd1 _ H).
      + rewrite <- app_assoc. exact Eo.
      + apply Forall_app. split.
        * eapply Forall_impl; [|exact Hb]. cbv beta. intros o' (n' & B' & I'). exists n'. split; [exact B'|]. intros c Hin. apply in_or_app. left. now apply I'.
        * constructor; [|constructor]. exists new. split; [exact Br|]. intros c Hin. apply in_app_or in Hin as [Hin|Hin]; apply in_or_app; [left|now right].
          rewrite <- Hc. now apply Hr.
      + now rewrite Hc1, Hc.
      + apply in_or_app. now left.
      + intros row' Hin. destruct (Hrows _ Hin) as (row & Hin0 & Ag). destruct (Hrow _ Hin0) as [F Hm]. split.
        * intros e o' lt E. apply split_last in E as [(-> & -> & ->)|(lt' & -> & E)]; [now apply T|].
          rewrite Forall_forall in Hb. assert (Ho' : In o' before) by (rewrite E; apply in_or_app; right; now left).
          destruct (Hb _ Ho') as (n' & B' & I'). eapply tells_given_agree; [exact B'|exact I'| |eapply F; exact E]. now rewrite <- Hc.
        * rewrite (Ag (st_field s0)) by (rewrite Hc; exact Hfield). exact Hm.
      + destruct (merge_logs l0 l1) as (all0 & M0 & D0). assert (all0 = all) by congruence. subst all0. rewrite D0.
        eapply appended_now; [apply merged_appended|exact Ht|]. clear IH H.
        assert (Lg : (forall c ex, ~ part_of (OpFieldLogger id c ex) o) \/ (exists lid c ex, o = OpFieldLogger lid c ex)).
        { clear - Br. destruct o; try (left; intros c ex K; inversion K; fail); [right; eauto|].
          destruct Br as [K|(? & ? & ? & K & _)]; [cbn in K; contradiction|discriminate]. }
        destruct Lg as [Nl|(lid & names & ex & ->)].
        * rewrite (logs_nothing id _ Nl _ _ _ _ _ H1). intros lg row E; discriminate.
        * apply logger_data in H1 as (-> & -> & lg & E & ->). intros lg' row' El Hin. cbn [dget] in El.
          destruct (keqb_spec id lid) as [<-|]; [|discriminate]. injection El as <-.
          destruct (emit_rows _ _ _ _ E Rd _ Hin) as (row & k & Hrow0 & E1 & E2). destruct (Hrow _ Hrow0) as [F Hm].
          exists s0, before, names, ex, ops, (row_of d row), k. auto 8.
  Qed.
End Now.

Lemma exec_now w0 w id a l w' : tidy w0 id -> since w0 w -> execute a w = (Ok l, w') -> Forall (told_now w id a) (records id l).
Proof.
  intros Td S H. pose proof (CircusFacts.execute_nodup _ _ _ _ H) as Nl.
  apply execute_ok in H as (s & Es & H). destruct (story_then w0 w a S s Es) as (s0 & Es0 & T). pose proof T as (_ & _ & Tf & _ & _ & _ & _ & To & Ti).
  destruct H as [(_ & -> & H)|(_ & d & w1 & w2 & H1 & H2 & H3)]; [constructor|].
  unfold run_chain in H1. unfold records. rewrite (frames_dict id l Nl).
  assert (A : all_now w id a (dget id l)).
  { destruct (Td a s0 Es0) as [(cols & B)|Q].
    - rewrite <- To in B. rewrite <- Tf in B.
      refine (ops_now w id a s Es _ _ _ B [] _ _ (unforced a s w) _ _ _ eq_refl _ _ _ _ _ _ eq_refl _ H1).
      + constructor.
      + reflexivity.
      + now left.
      + apply init_rect.
      + intros row Hin. split; [intros e o lt E; destruct e; discriminate|]. cbn [init_story_data df_rows] in Hin. apply in_map_iff in Hin as (i & <- & Hi).
        unfold row_of. cbn [snd df_cols init_story_data]. cbn [cell]. now rewrite String.eqb_refl.
      + apply unforced_held; [|exact Es]. apply held_start. exact (sc_reach _ _ S).
      + intros lg row E; discriminate.
    - rewrite To in H1. rewrite (list_quiet id _ Q _ _ _ _ _ _ H1). intros lg row E; discriminate. }
  destruct (dget id l) as [lg|]; [|constructor]. apply Forall_forall. intros r Hr.
  assert (Hr' : In r (map (fun row => cell (df_cols lg) (snd row)) (df_rows lg))) by (destruct (df_rows lg) eqn:Er in Hr; [destruct Hr|]; cbn [flat_map] in Hr; now rewrite app_nil_r in Hr).
  apply in_map_iff in Hr' as (row & <- & Hin). exact (A lg row eq_refl Hin).
Qed.

(** What holds of the records of every execution holds of the records of a history. *)
Lemma history_each w0 id (P : world -> nat -> record -> Prop) :
  (forall a w l w', since w0 w -> execute a w = (Ok l, w') -> Forall (P w a) (records id l)) ->
  forall hs past L0 w L w', since w0 w -> emits w0 past L0 w -> emits w hs L w' ->
  exists pasts, Forall2 (fun p r => exists a future L1 w1, past ++ hs = p ++ HExec a :: future /\ emits w0 p L1 w1 /\ P w1 a r) pasts (records id L) /\
    StronglySorted earlier pasts /\ Forall (earlier past) pasts.
Proof.
  intros Pe. induction hs as [|h hs IH]; intros past L0 w L w' S H0 H.
  - inversion H; subst. exists []. repeat constructor.
  - inversion H as [|y1 a l w1 y5 L' y7 Hx He|y1 y2 w1 y4 y5 y6 Hno Hh He]; subst.
    + pose proof (exec_since _ a w l w1 S Hx) as S1. pose proof (Pe a w l w1 S Hx) as F.
      destruct (IH (past ++ [HExec a]) _ w1 L' w' S1 (emits_snoc _ _ _ _ _ _ _ H0 Hx) He) as (ps & F2 & Hs & Hk).
      rewrite <- app_assoc in F2. cbn [app] in F2.
      assert (Hk' : Forall (earlier past) ps) by (eapply Forall_impl; [|exact Hk]; unfold earlier; intros q; rewrite app_length; cbn; lia).
      exists (repeat past (length (records id l)) ++ ps). split; [|split].
      * rewrite records_app. apply Forall2_app; [|exact F2]. clear -F H0.
        induction F as [|r rs Hr _ IHr]; cbn; constructor; auto. exists a, hs, L0, w. auto.
      * clear -Hs Hk'. induction (length (records id l)) as [|m IHm]; [exact Hs|]. cbn. constructor; [exact IHm|].
        apply Forall_app. split; [|exact Hk']. apply Forall_forall. intros k Hin. apply repeat_spec in Hin. subst. unfold earlier. lia.
      * apply Forall_app. split; [|exact Hk']. apply Forall_forall. intros k Hin. apply repeat_spec in Hin. subst. unfold earlier. lia.
    + pose proof (other_since _ h w w1 Hno Hh S) as S1.
      destruct (IH (past ++ [h]) _ w1 L w' S1 (emits_snoc_other _ _ _ _ _ _ H0 Hno Hh) He) as (ps & F2 & Hs & Hk).
      rewrite <- app_assoc in F2. cbn [app] in F2. exists ps. split; [exact F2|]. split; [exact Hs|].
      eapply Forall_impl; [|exact Hk]. unfold earlier. intros q. rewrite app_length. cbn. lia.
Qed.

Lemma records_now w id hs L w' : tidy w id -> Forall reachable (w_rels w) -> emits w hs L w' ->
  exists pasts, Forall2 (logged_then w id hs) pasts (records id L) /\ StronglySorted earlier pasts.
Proof.
  intros Td R H.
  destruct (history_each w id (fun w1 a r => told_now w1 id a r) (fun a w1 l w2 S Hx => exec_now w w1 id a l w2 Td S Hx) hs [] [] w L w' (since_start w R) (emits_nil w) H)
    as (ps & F & Hs & _). exists ps. auto.
Qed.

Lemma emits_since w0 hs : forall w L w', since w0 w -> emits w hs L w' -> since w0 w'.
Proof.
  induction hs as [|h hs IH]; intros w L w' S H.
  - inversion H; subst. exact S.
  - inversion H as [|y1 b l v1 y5 L' y7 Hx He|y1 y2 v1 y4 y5 y6 Hno Hh He]; subst.
    + exact (IH _ _ _ (exec_since w0 _ _ _ _ S Hx) He).
    + exact (IH _ _ _ (other_since w0 _ _ _ Hno Hh S) He).
Qed.
