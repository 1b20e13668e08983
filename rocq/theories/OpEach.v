(** The select_many operation with pop when several rows name one "from" (see RelationshipEach.v). *)
From Coq Require Import Permutation.
From Verif Require Import Base BaseFacts Rng RngFacts Utils UtilsFacts Relationship SpecRelationship RelationshipFacts RelationshipProps RelationshipEach Frame Gens GensProps
  Clock Attribute AttributeFacts World Story Ops OpsFacts Fs Circus SpecStory StoryFacts StoryExec StoryProps SpecOps OpsProps OpsColumns StoryMore StoryBack OpsMore SpecPopulation SpecLedger.

Lemma select_many_op_each r from named qty discard d w d' l w' rel :
  run_op (OpSelectMany r from named qty true discard) d w = (Ok (d', l), w') ->
  nth_error (w_rels w) r = Some rel -> reachable rel -> ~ In named (df_cols d) ->
  let key row := cell (df_cols d) (snd row) from in
  exists rel' kept tos gone served, w' = set_rels (set_nth r rel' (w_rels w)) w /\
    adds_cells d d' named kept (map VList tos) /\ length tos = length kept /\
    incl served (combine kept tos) /\ NoDup (map (fun rt => key (fst rt)) served) /\
    (forall rt, In rt (combine kept tos) -> snd rt <> [] -> In (key (fst rt)) (map (fun rt => key (fst rt)) served)) /\
    Permutation (stored rel) (stored rel' ++ gone) /\
    Permutation (map fst gone) (flat_map (fun rt => map (pair (key (fst rt))) (snd rt)) served).
Proof.
  intros H Hr Hreach Hn key. cbn [run_op] in H. unfold transformed in H. mstep H. injection H as <- <- <-.
  rename E into H. mstep H. apply lift_ok in E as [E ->]. apply get_col_cells in E. subst x0.
  mstep H. apply lift_ok in E as [E ->]. apply get_col_cells in E. subst x0.
  mstep H. apply lift_ok in E as [E ->]. rename x0 into ns. apply mapr_ok_Forall2 in E.
  destruct (reserved named); [discriminate|]. mstep H. unfold call_select_many in E0.
  mstep E0. apply deref_ok in E1 as [E1 ->]. rewrite Hr in E1. injection E1 as <-.
  mstep E0. destruct x1 as [rows rel']. apply lift_ok in E1 as [E1 ->]. mstep E0. injection E2 as <- <-.
  injection E0 as <- <-. apply lift_ok in H as [H ->]. unfold add_columns in H.
  change (map (fun row => (fst row, cell (df_cols d) (snd row) from)) (df_rows d)) with (map (fun row => (fst row, key row)) (df_rows d)) in E1.
  assert (Hq : Forall2 (fun row n => cell (df_cols d) (snd row) qty = vnat n) (df_rows d) ns).
  { clear -E. revert ns E. induction (df_rows d) as [|row rs IH]; intros ns E; cbn in E; inversion E; subst; constructor; auto.
    cbn in *. now apply count_of_vnat. }
  pose proof (Forall2_length _ _ _ Hq) as Hlen.
  set (reqs := map (fun '(kv, n) => mkReq (fst kv) (snd kv) n) (combine (map (fun row => (fst row, key row)) (df_rows d)) ns)) in E1.
  assert (Er : reqs = map (fun rn => mkReq (fst (fst rn)) (key (fst rn)) (snd rn)) (combine (df_rows d) ns)).
  { unfold reqs. rewrite combine_map_l, map_map. reflexivity. }
  clearbody reqs. subst reqs.
  assert (Ei : map q_idx (map (fun rn => mkReq (fst (fst rn)) (key (fst rn)) (snd rn)) (combine (df_rows d) ns)) = df_index d).
  { rewrite map_map. cbn. rewrite <- (map_map fst fst). now rewrite map_fst_combine. }
  assert (Ef : map q_from (map (fun rn => mkReq (fst (fst rn)) (key (fst rn)) (snd rn)) (combine (df_rows d) ns)) = map key (df_rows d)).
  { rewrite map_map. cbn. rewrite <- (map_map fst key). now rewrite map_fst_combine. }
  replace (map (fun '(i, tos) => (i, [VList tos])) rows) with (map (fun iv : val * val => (fst iv, [snd iv])) (map (fun x => (fst x, VList (snd x))) rows)) in H
    by (rewrite map_map; apply map_ext; intros [i t]; reflexivity).
  assert (Nd0 : NoDup (df_index d)).
  { unfold merge_index in H. destruct (nodupb (df_index d)) eqn:En; [now apply nodupb_NoDup|discriminate]. }
  destruct (select_many_rows _ _ _ _ _ _ Hreach ltac:(rewrite Ei; exact Nd0) E1) as (S1 & S2 & S3 & S4 & S5).
  rewrite Ei in *.
  assert (Hincl : incl (map fst (map (fun x : val * list val => (fst x, VList (snd x))) rows)) (df_index d)).
  { rewrite map_map. exact S2. }
  destruct (inner_merge_one _ _ _ _ H Hincl Hn) as (Nd & Nr & kept & vs & A & P & K).
  pose proof A as (A1 & A2 & A3 & A4).
  set (tos := map (fun row : val * list val => given_to (fst row) rows) kept).
  assert (Ev : vs = map VList tos).
  { unfold tos. rewrite map_map. clear -P S1 A3. 
    assert (Q : forall i v, In (i, v) (combine (map fst kept) vs) -> v = VList (given_to i rows)).
    { intros i v Hi. apply (Permutation_in _ (Permutation_sym P)) in Hi. apply in_map_iff in Hi as ([i' ts] & [= <- <-] & Hi).
      f_equal. symmetry. now apply given_dget. }
    clear P. revert vs A3 Q. induction kept as [|row kept IH]; intros [|v vs] L Q; cbn in *; try discriminate; [reflexivity|].
    f_equal; [apply Q; now left|]. apply IH; [now injection L|]. intros i x Hx. apply Q. now right. }
  subst vs. rewrite map_length in A3.
  assert (Hg : forall row, In row (df_rows d) -> ~ In row kept -> given_to (fst row) rows = []).
  { intros row Hin Hk. apply given_absent. intros C. apply Hk, K; [exact Hin|]. rewrite map_map. exact C. }
  assert (Nrows : NoDup (df_rows d)) by (eapply NoDup_map_inv; exact Nd).
  destruct (select_many_pops_each _ _ _ _ _ Hreach ltac:(rewrite Ei; exact Nd0) E1) as (sv & gone & T1 & T2 & T3 & T4 & T5 & T6).
  destruct (Forall2_choose (fun rt q => In rt (combine kept tos) /\ key (fst rt) = q_from q /\ snd rt = given_to (q_idx q) rows) sv) as (served & HS).
  { apply Forall_forall. intros q Hq0. pose proof (T3 _ Hq0) as Hne. apply T1 in Hq0. apply in_map_iff in Hq0 as ([row n] & <- & Hin). cbn [q_idx q_from fst snd] in *.
    apply in_combine_l in Hin. assert (Hk : In row kept).
    { apply K; [exact Hin|]. destruct (mem (fst row) (map fst (map (fun x : val * list val => (fst x, VList (snd x))) rows))) eqn:Em; [now apply mem_In|]. apply mem_not_In in Em.
      exfalso. apply Hne. apply given_absent. intros C. apply Em. rewrite map_map. exact C. }
    exists (row, given_to (fst row) rows). split; [|split; reflexivity]. unfold tos. clear - Hk. induction kept as [|r0 kept IH]; [destruct Hk|]. cbn [map combine]. destruct Hk as [->|Hk]; [now left|right; auto]. }
  assert (Efrom : map (fun rt => key (fst rt)) served = map q_from sv).
  { clear -HS. induction HS as [|rt q a b (_ & E & _) _ IH]; cbn [map]; [reflexivity|]. now rewrite E, IH. }
  exists rel', kept, tos, gone, served. split; [reflexivity|]. split; [exact A|]. split; [exact A3|]. split; [|split; [|split; [|split; [exact T5|]]]].
  - intros rt Hrt. clear -HS Hrt. induction HS as [|rt' q a b (Hi & _) _ IH]; [destruct Hrt|]. destruct Hrt as [<-|Hrt]; auto.
  - rewrite Efrom. exact T2.
  - intros [row ts] Hrt Hne. cbn [fst snd] in *. rewrite Efrom.
    assert (In row (df_rows d)) as Hrow by (eapply sublist_In; [exact A2|]; eapply in_combine_l; eauto).
    assert (Ets : ts = given_to (fst row) rows).
    { clear - Hrt. unfold tos in Hrt. induction kept as [|r0 kept IH]; cbn in Hrt; [tauto|]. destruct Hrt as [[= -> <-]|Hrt]; auto. }
    assert (exists n, In (row, n) (combine (df_rows d) ns)) as (n & Hrn).
    { clear - Hrow Hlen. revert ns Hlen. induction (df_rows d) as [|r0 l IH]; intros [|n ns] Hlen; cbn in *; try discriminate; [destruct Hrow|]. destruct Hrow as [->|Hrow]; [exists n; now left|].
      injection Hlen as Hlen. destruct (IH Hrow ns Hlen) as (m & Hm). exists m. now right. }
    apply (T4 (mkReq (fst row) (key row) n)); [apply in_map_iff; now exists (row, n)|]. cbn [q_idx]. now rewrite <- Ets.
  - rewrite T6. match goal with |- Permutation ?a ?b => cut (a = b); [intros ->; apply Permutation_refl|] end.
    clear -HS. induction HS as [|rt q a b (_ & E1 & E2) _ IH]; [reflexivity|]. cbn [flat_map]. now rewrite E1, E2, IH.
Qed.

Lemma taken_each r f n q discard d w d' l w' rel :
  run_op (OpSelectMany r f n q true discard) d w = (Ok (d', l), w') -> nth_error (w_rels w) r = Some rel -> reachable rel -> ~ In n (df_cols d) -> rectangular d -> In f (df_cols d) ->
  exists gone served, Permutation (pairs_of w r) (pairs_of w' r ++ gone) /\ Permutation gone (unpacked served) /\ incl served (listed d' f n) /\ NoDup (map fst served) /\
    (forall x, In x (listed d' f n) -> list_of (snd x) <> [] -> In (fst x) (map fst served)).
Proof.
  intros H Hr Hreach Hn Rd Hf. destruct (select_many_op_each _ _ _ _ _ _ _ _ _ _ _ H Hr Hreach Hn) as (rel' & kept & tos & gone & served & -> & (A1 & A2 & A3 & A4) & Lt & I & Nd & Al & P & Pg).
  assert (El : listed d' f n = map (fun rt => (cell (df_cols d) (snd (fst rt)) f, VList (snd rt))) (combine kept tos)).
  { unfold listed. rewrite A1, A4, map_map.
    assert (Hk : forall row, In row kept -> length (snd row) = length (df_cols d)).
    { intros row Hrow. assert (Hrow2 : In row (df_rows d)) by (eapply sublist_In; [exact A2|exact Hrow]). clear Hrow. rename Hrow2 into Hrow. exact (proj2 Rd _ Hrow). }
    clear - Hk Hn Hf Lt. revert tos Lt. induction kept as [|row kept IH]; intros [|t tos] Lt; cbn [combine map] in *; try discriminate; [reflexivity|].
    injection Lt as Lt. f_equal; [|apply IH; [intros x Hx; apply Hk; now right|exact Lt]]. cbn [fst snd].
    pose proof (Hk row (or_introl eq_refl)) as Hl. f_equal; [now apply cell_app_l|]. rewrite cell_app_r by assumption. cbn [cell]. now rewrite String.eqb_refl. }
  exists (map fst gone), (map (fun rt => (cell (df_cols d) (snd (fst rt)) f, VList (snd rt))) served). split; [|split; [|split; [|split]]].
  - unfold pairs_of. cbn [w_rels set_rels]. rewrite nth_error_set_nth, Nat.eqb_refl, Hr. rewrite (Permutation_map fst P), map_app. apply Permutation_refl.
  - rewrite Pg. unfold unpacked. rewrite (flat_map_concat_map _ (map _ _)), map_map, <- flat_map_concat_map. apply Permutation_refl.
  - rewrite El. intros x Hx. apply in_map_iff in Hx as (rt & <- & Hx). apply in_map_iff. exists rt. split; [reflexivity|exact (I _ Hx)].
  - rewrite map_map. exact Nd.
  - rewrite El. intros x Hx. apply in_map_iff in Hx as (rt & <- & Hx). cbn [fst snd list_of]. rewrite map_map. exact (Al _ Hx).
Qed.
