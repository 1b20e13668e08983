(** Facts about circuses whose runs never raise: what stays true while the stories run. *)
From Verif Require CircusFacts.
From Verif Require Import Base BaseFacts Rng Utils UtilsFacts Relationship RelationshipFacts RelationshipSelect RelationshipGiven SpecRelationship RelationshipProps Frame Gens GensProps
  Clock SpecClock ClockProps Attribute SpecAttribute AttributeFacts World Story Ops OpsFacts Fs Helpers HelpersFacts Circus SpecStory StoryFacts StoryExec StoryProps SpecOps OpsProps
  OpsColumns OpsMore SpecWorld WorldProps SpecPopulation GensKept SpecLocal LocalFacts LocalOps LocalCalls CircusProps GeographyLog SpecCircus SpecSupply SupplyFacts
  SupplyProps SpecLedger LedgerProps SpecRecords RecordsGens RecordsProps SpecSafe SafeGens.
From Coq Require Import Permutation.

(** ** Weights *)
Definition positive (rel : relationship) : Prop := forall f t q, In (f, t, q) (stored rel) -> (0 < q)%Q.
Definition positive_view (g : dict val relations) : Prop := forall f tq, In tq (view g f) -> (0 < snd tq)%Q.
Lemma positive_views rel : wf_grouped (grouped rel) -> (positive rel <-> positive_view (grouped rel)).
Proof.
  intros [Nd _]. unfold positive. rewrite stored_contents. split.
  - intros H f [t q] Hin. apply (H f t). now apply In_contents.
  - intros H f t q Hin. apply In_contents in Hin; [|exact Nd]. exact (H f (t, q) Hin).
Qed.
Lemma delete_from_In {A} idx (l : list A) : forall i x, In x (delete_from i idx l) -> In x l.
Proof. induction l as [|y l IH]; intros i x; cbn; [tauto|]. destruct (existsb _ _) || destruct (mem _ _); cbn; intros H; try (now right; eapply IH; eauto); destruct H as [->|H]; eauto. Qed.
Lemma remove_group_positive g f idx : wf_grouped g -> positive_view g -> wf_grouped (remove_group g f idx) /\ positive_view (remove_group g f idx).
Proof.
  intros W P. destruct (remove_group_spec g f idx W) as [W' V]. split; [exact W'|]. intros f' tq. rewrite V. destruct (keqb f' f); [|apply P].
  intros H. eapply P. eapply delete_from_In. exact H.
Qed.
Lemma fold_positive {A} (step : dict val relations -> A -> dict val relations) l : (forall g x, wf_grouped g -> positive_view g -> wf_grouped (step g x) /\ positive_view (step g x)) ->
  forall g, wf_grouped g -> positive_view g -> positive_view (fold_left step l g).
Proof. intros Hs. induction l as [|x l IH]; intros g W P; cbn [fold_left]; [exact P|]. destruct (Hs g x W P). now apply IH. Qed.

Lemma positive_step r r' : reachable r -> rel_step r r' -> positive r -> positive r'.
Proof.
  intros R St P. pose proof (reachable_wf _ R) as W. pose proof (reachable_wf _ (rel_step_reachable _ _ R St)) as W'.
  apply positive_views; [exact W'|]. apply positive_views in P; [|exact W]. destruct St as [froms pop discard oto ov rows r' E|reqs pop discard rows r' E|froms tos r' E|froms items r' E].
  - unfold select_one in E. destruct (negb _); [discriminate|]. apply bind_ok in E as ([out st1] & _ & E).
    destruct (match out with [] => _ | _ => _ end) as [out2 st2]. injection E as _ <-. cbn [grouped]. destruct pop; [|exact P].
    apply fold_positive; auto. intros. now apply remove_group_positive.
  - unfold select_many in E. destruct (gather _ _ _) as [reqs' st1]. apply bind_ok in E as ([out st2] & _ & E). injection E as _ <-. cbn [grouped]. destruct pop; [|exact P].
    apply fold_positive; auto. intros g f Wg Pg. destruct (filter _ out); [auto|]. now apply remove_group_positive.
  - apply (add_relations_spec _ _ _ _ _ W) in E as (_ & _ & _ & Pm). intros f [t q] Hin. apply In_contents in Hin; [|apply W'].
    apply (Permutation_in _ Pm) in Hin. apply in_app_or in Hin as [Hin|Hin].
    + apply In_contents in Hin; [|apply W]. exact (P f (t, q) Hin).
    + unfold lines in Hin. apply in_map_iff in Hin as ([a [b c]] & [= <- <- <-] & Hin). apply in_combine_r in Hin. apply in_combine_r in Hin. cbn in Hin.
      apply repeat_spec in Hin. cbn. now subst.
  - apply (add_grouped_wf_spec _ _ _ W) in E as [_ Pm]. intros f [t q] Hin. apply In_contents in Hin; [|apply W'].
    apply (Permutation_in _ Pm) in Hin. apply in_app_or in Hin as [Hin|Hin].
    + apply In_contents in Hin; [|apply W]. exact (P f (t, q) Hin).
    + apply in_flat_map in Hin as ([a ts] & _ & Hin). apply in_map_iff in Hin as (b & [= <- <- <-] & _). reflexivity.
Qed.

(** ** Frames *)
Definition framed (s : story) (cols : list string) (d : df) : Prop :=
  rectangular d /\ df_cols d = cols /\ NoDup (df_index d) /\
  forall row, In row (df_rows d) -> row_of d row (st_field s) = fst row /\ In (fst row) (st_ids s).

Lemma sublist_NoDup_map {A B} (f : A -> B) l m : sublist l m -> NoDup (map f m) -> NoDup (map f l).
Proof.
  induction 1 as [|x l m H IH|x l m H IH]; cbn; intros N; auto.
  - inversion N; auto.
  - inversion N as [|? ? Hn Hm]; subst. constructor; [|auto]. intros Hin. apply Hn. apply in_map_iff in Hin as (y & E & Hy). apply in_map_iff. exists y.
    split; [exact E|]. eapply sublist_In; eauto.
Qed.

Lemma extended_index complete d d' new : rectangular d -> extended complete d d' new -> NoDup (df_index d) ->
  NoDup (df_index d') /\ forall row', In row' (df_rows d') -> exists row, In row (df_rows d) /\ fst row' = fst row /\ agrees (df_cols d) (row_of d row) (row_of d' row').
Proof.
  intros [_ L] (Hc & kept & Hs & _ & F) Nd. split.
  - unfold df_index. replace (map fst (df_rows d')) with (map fst kept); [eapply sublist_NoDup_map; eauto|].
    clear Hs. induction F as [|? ? ? ? [E _] F IH]; cbn; [reflexivity|]. congruence.
  - intros row' Hin. destruct (Forall2_In_r _ _ _ _ F Hin) as (row & Hr & E & extra & E2 & _).
    assert (Hrow : In row (df_rows d)) by (eapply sublist_In; eauto). exists row. split; [exact Hrow|]. split; [exact E|].
    intros c Hc'. unfold row_of. rewrite Hc, E2. apply cell_app_l; [exact Hc'|now apply L].
Qed.

Lemma brings_index o new d w d' l w' : brings o new -> run_op o d w = (Ok (d', l), w') -> rectangular d -> NoDup new ->
  (forall c, In c new -> ~ In c (df_cols d)) -> NoDup (df_index d) ->
  NoDup (df_index d') /\ forall row', In row' (df_rows d') -> exists row, In row (df_rows d) /\ fst row' = fst row /\ agrees (df_cols d) (row_of d row) (row_of d' row').
Proof.
  intros B H R Nn Hf Nd.
  assert (Same : d' = d -> NoDup (df_index d') /\ forall row', In row' (df_rows d') -> exists row, In row (df_rows d) /\ fst row' = fst row /\ agrees (df_cols d) (row_of d row) (row_of d' row')).
  { intros ->. split; [exact Nd|]. intros row Hr. exists row. split; [exact Hr|]. split; [reflexivity|]. intros c _. reflexivity. }
  destruct B as [A|(r & from & named & -> & ->)].
  - destruct (only_side_effect o) eqn:Se.
    + apply (side_effect_data _ _ _ _ _ _ Se) in H as [-> _]. now apply Same.
    + destruct o; cbn [adds only_side_effect] in A, Se; try discriminate; try contradiction;
        try solve [eapply extended_index; [exact R|eapply target_extended; [exact A|exact H|exact Hf]|exact Nd]].
      * apply logger_data in H as [-> _]. now apply Same.
      * destruct (drop_row_exact _ _ _ _ _ _ H) as (_ & _ & Hc & Hr). split.
        -- unfold df_index. rewrite Hr. eapply sublist_NoDup_map; [apply sublist_filter|exact Nd].
        -- intros row Hin. rewrite Hr in Hin. apply filter_In in Hin as [Hin _]. exists row. split; [exact Hin|]. split; [reflexivity|]. intros c _. unfold row_of. now rewrite Hc.
      * destruct A as [-> A]. destruct (apply_extended _ _ _ _ _ _ _ _ H) as (sel & out & Es & Eo & E).
        assert (Ec : df_cols sel = source_fields) by (unfold select_cols in Es; apply bind_ok in Es as (? & _ & Es); injection Es as <-; reflexivity).
        destruct (A _ _ Ec Eo) as [Ro Lo]. rewrite rename_all in E by exact Lo. eapply extended_index; [exact R|apply E; [exact Hf|exact Ro]|exact Nd].
  - assert (Hn : ~ In named (df_cols d)) by (apply Hf; now left).
    destruct (select_all_rows _ _ _ _ _ _ _ _ H R Hn) as (Hc & Hr). split.
    + cbn [run_op] in H. unfold transformed in H. mstep H. injection H as <- <- <-. mstep E. apply deref_ok in E0 as [_ ->].
      apply lift_ok in E as [E _]. unfold select_all in E. destruct (reserved named); [discriminate|]. destruct (negb _); [discriminate|].
      apply bind_ok in E as (i & _ & E). injection E as <-. unfold df_index. cbn [df_rows]. clear Hr Hc.
      generalize (uniq_NoDup (map (fun row : val * list val => nth i (snd row) VNA) (df_rows d))).
      match goal with |- context [select_all_horizontal ?r ?l] => generalize (select_all_horizontal r l) end. intros sel.
      generalize (uniq (map (fun row : val * list val => nth i (snd row) VNA) (df_rows d))) as fs. intros fs. induction fs as [|f fs IH]; intros Nf; cbn [flat_map map]; [constructor|].
      inversion Nf as [|? ? Hnf Nfs]; subst. rewrite map_app. apply NoDup_app_parts; [|now apply IH|].
      * destruct (dget f sel) as [tos|]; [|constructor]. rewrite map_map. cbn [fst]. eapply sublist_NoDup_map; [apply sublist_filter|exact Nd].
      * intros x H1 H2. destruct (dget f sel) as [tos|]; [|destruct H1]. rewrite map_map in H1. cbn [fst] in H1. apply in_map_iff in H1 as (r1 & E1 & H1).
        apply in_map_iff in H2 as (r2 & E2 & H2). apply in_flat_map in H2 as (f2 & Hf2 & H2). destruct (dget f2 sel) as [tos2|]; [|destruct H2].
        apply in_map_iff in H2 as (r3 & <- & H2). cbn [fst] in E2. apply filter_In in H1 as [H1 K1]. apply filter_In in H2 as [H2 K2].
        assert (r1 = r3). { apply (NoDup_map_inv_eq fst (df_rows d)); [exact Nd|exact H1|exact H2|congruence]. }
        subst r3. apply keqb_eq in K1, K2. apply Hnf. congruence.
    + intros row' Hin. destruct (Hr _ Hin) as (row & v & Hrow & ->). exists row. split; [exact Hrow|]. split; [reflexivity|].
      intros c Hin'. unfold row_of. rewrite Hc. cbn [snd]. apply cell_app_l; [exact Hin'|now apply R].
Qed.
