(** Members forced by an operation of any story. *)
From Verif Require Import Base BaseFacts Rng Utils Relationship Frame Gens Clock Attribute World Story Ops OpsFacts Circus SpecStory StoryFacts StoryExec StoryProps StoryMore SpecOps StoryWorld StoryWorld2 OpsProps.

Lemma op_force a b w l w' s ops1 f cond ops2 d1 l1 w1 i row h :
  execute a w = (Ok l, w') -> distinct_members w -> nth_error (w_stories w) a = Some s -> due_members s <> [] ->
  st_ops s = ops1 ++ OpForce b f cond :: ops2 ->
  run_chain ops1 (story_rows (st_field s) (due_members s)) (at_start a w) = (Ok (d1, l1), w1) ->
  In row (df_rows d1) -> cell (df_cols d1) (snd row) f = i -> i <> VNA ->
  match cond with None => True | Some c => cell (df_cols d1) (snd row) c = VBool true end ->
  executions b h = 0 -> acts_now (after w' h) b i.
Proof.
  intros H D Hs Hd Ho Hc1 Hrow Hcell Hna Hcond Hh. pose proof (fun s => D b s) as Db. rewrite (at_start_unforced _ _ _ Hs) in Hc1.
  pose proof (execute_ok _ _ _ _ H) as (s0 & H0 & Hex). rewrite Hs in H0. injection H0 as <-.
  destruct Hex as [(E & _)|(_ & dd & w2 & w3 & Hc & Hm & Ht)]; [tauto|].
  change (story_rows (st_field s) (due_members s)) with (init_story_data (st_field s) (due_members s)) in Hc1.
  rewrite Ho in Hc. unfold run_chain in Hc, Hc1. rewrite run_list_app in Hc. unfold bindM in Hc. rewrite Hc1 in Hc.
  change (run_list run_op (OpForce b f cond :: ops2) d1 l1 w1 = (Ok (dd, l), w2)) in Hc. cbn [run_list] in Hc.
  mstep Hc. destruct x as [d2 l2]. apply force_op_ok in E; [|intros Ez; rewrite Ez in Hrow; destruct Hrow].
  destruct E as (-> & -> & ids & Eids & Ef). mstep Hc. apply lift_ok in E. destruct E as [_ ->].
  assert (Hi : In i ids) by (apply (force_ids_In _ _ _ _ Eids); split; [exact Hna|]; exists row; auto).
  apply story_force_ok in Ef. destruct Ef as (s1 & s2 & Es1 & Ef & Ew).
  destruct (force_spec _ _ _ _ Ef) as (St2 & _ & Hf2 & Hk & Hr2 & _).
  specialize (Hr2 eq_refl i). specialize (Hk eq_refl i Hi).
  assert (Hrem : remaining_of s2 i = Some (Some 0%Z)).
  { rewrite Hr2. rewrite (proj2 (mem_In i ids) Hi). unfold remaining_of. unfold st_ids in Hk.
    destruct (dget i (st_timer s1)) eqn:Eg; [reflexivity|]. apply dget_None in Eg. tauto. }
  assert (Hfor : In i (st_forced s2)) by (apply Hf2; now right).
  assert (Hw0 : nth_error (w_stories w0) b = Some s2) by (rewrite Ew; cbn; eapply nth_put_same; eauto).
  assert (Hrest : stories_rel (forced_same b i) w0 w2).
  { pose proof (run_list_logs run_op ops2 d1 x w0) as HL. pose proof (chain_forced b i ops2 d1 w0) as HC. unfold run_chain in HC.
    destruct (run_list run_op ops2 d1 [] w0) as [[[d'' l'']|e] v''].
    - destruct HL as (l2' & HL & _). rewrite Hc in HL. injection HL as _ _ <-. exact HC.
    - rewrite Hc in HL. discriminate. }
  destruct Hrest as [_ Hrest]. destruct (Hrest b s2 Hw0) as (s3 & Es3 & St3 & F3).
  destruct (F3 eq_refl Hfor Hrem) as [Hfor3 Hrem3].
  assert (exists h1, executions b [h1] = 0 /\ happen h1 w2 = (Ok tt, w3)) as (h1 & N1 & E1).
  { destruct (st_auto s); [exists (HReset a (Some (due_members s)))|exists (HTick a (due_members s))]; (split; [reflexivity|exact Hm]). }
  set (h2 := HTick a (snd (active_inactive_ids s))). assert (E2 : happen h2 w3 = (Ok tt, w')) by exact Ht.
  assert (N2 : executions b (h1 :: h2 :: h) = 0) by (destruct h1; cbn in *; try exact Hh; lia).
  destruct (after_forced b i (h1 :: h2 :: h) w2 s3 N2 Es3 Hfor3 Hrem3) as (s4 & Es4 & _ & _ & Hr4). cbn [after] in Es4. rewrite E1 in Es4. cbn [snd] in Es4. rewrite E2 in Es4. cbn [snd] in Es4.
  apply (acts_now_iff _ _ _ s4 Es4); [|exact Hr4].
  pose proof (happen_distinct (HExec a) w D) as D'. cbn [happen] in D'. rewrite H in D'. cbn [snd] in D'. exact (after_distinct h w' D' _ _ Es4).
Qed.
