(** Properties of one execution, of the methods of a story and of its creation. *)
From Verif Require Import Base BaseFacts Rng RngFacts Utils UtilsFacts Relationship RelationshipFacts Frame Gens GensProps
  Clock SpecClock ClockProps Attribute AttributeFacts World Story Ops OpsFacts Fs Circus SpecStory StoryFacts StoryExec
  StoryProps SpecOps OpsProps OpsColumns.

(** ** What the operations receive *)
Lemma at_start_unforced a w s : nth_error (w_stories w) a = Some s -> at_start a w = unforced a s w.
Proof. intros H. unfold at_start. rewrite H. reflexivity. Qed.

Lemma due_sublist s : sublist (due_members s) (st_ids s).
Proof. unfold due_members, st_ids, dkeys. apply sublist_map, sublist_filter. Qed.

Lemma exec_runs_ops a w l w' s : execute a w = (Ok l, w') -> nth_error (w_stories w) a = Some s ->
  due_members s <> [] ->
  exists d' w1, run_chain (st_ops s) (story_rows (st_field s) (due_members s)) (at_start a w) = (Ok (d', l), w1).
Proof.
  intros H Hs Hd. rewrite (at_start_unforced _ _ _ Hs). apply execute_ok in H. destruct H as (s0 & H0 & H).
  rewrite Hs in H0. injection H0 as <-. destruct H as [(E & _)|(_ & d' & w1 & w2 & Hc & _)]; [tauto|].
  exists d', w1. exact Hc.
Qed.

Lemma inactive_known s : forall i, In i (snd (active_inactive_ids s)) -> In i (st_ids s).
Proof.
  intros i H. rewrite active_spec in H. cbn [snd] in H. apply in_map_iff in H. destruct H as (x & <- & Hx).
  apply filter_In in Hx. destruct Hx as [Hx _]. unfold st_ids, dkeys. now apply in_map.
Qed.

Lemma exec_nobody a w s : nth_error (w_stories w) a = Some s -> due_members s = [] ->
  exists s', execute a w = (Ok [], set_stories (set_nth a s' (w_stories w)) w) /\ static s s' /\
    (forall i, state_of s' i = state_of s i) /\
    (NoDup (st_ids s) -> forall i, remaining_of s' i = option_map ticked (remaining_of s i)).
Proof.
  intros Hs Hd. destruct (tick_runs (with_forced s []) (snd (active_inactive_ids s))) as (s' & Ht).
  { intros i H. apply inactive_known in H. exact H. }
  exists s'. destruct (tick_spec _ _ _ Ht) as (St & _ & Hst & Hr). split.
  - assert (Ea : active_inactive_ids s = ([], snd (active_inactive_ids s))) by (rewrite active_spec, Hd; reflexivity).
    unfold execute, bindM, deref, put_story, modify, ret, story_tick, bindM, deref, lift, put_story, modify.
    rewrite Hs, Ea. cbn [w_stories set_stories]. rewrite (nth_put_same _ _ _ _ Hs), Ht. f_equal.
    unfold set_stories. cbn. f_equal.
    clear. revert a. induction (w_stories w) as [|x l IH]; intros [|a]; cbn; auto. now rewrite IH.
  - split; [exact St|]. split; [exact Hst|]. intros Nd i. rewrite Hr.
    change (remaining_of (with_forced s []) i) with (remaining_of s i). destruct (mem i _) eqn:Em; [reflexivity|].
    assert (Ef : tick_ids (with_forced s []) (snd (active_inactive_ids s)) = snd (active_inactive_ids s)) by reflexivity.
    rewrite Ef in Em. apply mem_not_In in Em. destruct (remaining_of s i) as [r|] eqn:Er; [|reflexivity].
    exfalso. apply Em. apply inactive_iff; [exact Nd|]. exists r. split; [exact Er|]. intros ->.
    apply due_iff in Er; [|exact Nd]. rewrite Hd in Er. destruct Er.
Qed.

(** the rows a logger placed first shows *)
Lemma exec_first_log a w l w' s id ops : execute a w = (Ok l, w') -> nth_error (w_stories w) a = Some s ->
  st_ops s = OpFieldLogger id [] [] :: ops -> (forall o, In o ops -> logs_to id o = false) ->
  dget id l = match due_members s with [] => None | _ => Some (story_rows (st_field s) (due_members s)) end.
Proof.
  intros H Hs Ho Hn. destruct (due_members s) as [|x xs] eqn:Ed.
  - destruct (exec_nobody _ _ _ Hs Ed) as (s' & E & _). rewrite E in H. injection H as <- _. reflexivity.
  - destruct (exec_runs_ops _ _ _ _ _ H Hs) as (d' & w1 & Hc); [rewrite Ed; discriminate|].
    rewrite Ho, Ed in Hc. unfold run_chain in Hc. cbn [run_list] in Hc. mstep Hc. destruct x0 as [d1 s1].
    apply logger_data in E. destruct E as (-> & -> & lg & E & ->). injection E as <-.
    mstep Hc. apply lift_ok in E. destruct E as [E ->]. apply run_list_logs_to with (id := id) in Hc; [|exact Hn].
    rewrite Hc. destruct (merge_logs [] [(id, story_rows (st_field s) (x :: xs))]) as (m & M & D).
    assert (m = x0) by congruence. subst m. rewrite D. cbn. destruct (keqb_spec id id); [reflexivity|congruence].
Qed.

(** ** Forcing from the operations of the story itself *)
Lemma force_ids_In d f cond ids : force_ids d f cond = Ok ids ->
  forall i, In i ids <-> i <> VNA /\ exists row, In row (df_rows d) /\ cell (df_cols d) (snd row) f = i /\
    match cond with None => True | Some c => cell (df_cols d) (snd row) c = VBool true end.
Proof.
  unfold force_ids. intros H i. apply bind_ok in H. destruct H as (bs & Eb & H).
  apply bind_ok in H. destruct H as (s & Es & H). injection H as <-.
  apply get_col_cells in Es. subst s. cbn [df_cols df_rows df_mask].
  assert (Em : mask_rows bs (df_rows d) = filter (fun row => match cond with None => true
                | Some c => val_eqb (cell (df_cols d) (snd row) c) (VBool true) end) (df_rows d)).
  { destruct cond as [c|].
    - apply bool_col_ok in Eb. destruct Eb as [-> _]. apply mask_filter.
    - injection Eb as <-. apply mask_filter. }
  rewrite Em. unfold dropna. split.
  - intros H. apply in_map_iff in H. destruct H as ([j v] & <- & H). apply filter_In in H. destruct H as [H Hna].
    apply in_map_iff in H. destruct H as (row & [= <- <-] & H). apply filter_In in H. destruct H as [H Hc].
    cbn [snd] in *. split; [intros E; rewrite E in Hna; discriminate|]. exists row. split; [exact H|]. split; [reflexivity|].
    destruct cond; [now apply val_eqb_eq|exact I].
  - intros (Hna & row & H & <- & Hc). apply in_map_iff. exists (fst row, cell (df_cols d) (snd row) f).
    split; [reflexivity|]. apply filter_In. split.
    + apply in_map_iff. exists row. split; [reflexivity|]. apply filter_In. split; [exact H|].
      destruct cond; [now apply val_eqb_eq|reflexivity].
    + cbn [snd]. destruct (cell (df_cols d) (snd row) f); [congruence|reflexivity..].
Qed.

Lemma force_op_ok a f cond d w d' l w' : run_op (OpForce a f cond) d w = (Ok (d', l), w') ->
  df_rows d <> [] ->
  d' = d /\ l = [] /\ exists ids, force_ids d f cond = Ok ids /\ story_force a ids w = (Ok tt, w').
Proof.
  cbn [run_op]. intros H Hr. apply bindM_ok in H. destruct H as (u & w1 & H1 & H). injection H as <- <- <-.
  unfold if_rows in H1. destruct (df_rows d); [tauto|]. mstep H1. apply lift_ok in E. destruct E as [E ->].
  destruct u. eauto.
Qed.

Lemma self_force a w l w' s ops1 f cond ops2 d1 l1 w1 i row :
  execute a w = (Ok l, w') -> nth_error (w_stories w) a = Some s -> NoDup (st_ids s) ->
  due_members s <> [] ->
  st_ops s = ops1 ++ OpForce a f cond :: ops2 ->
  run_chain ops1 (story_rows (st_field s) (due_members s)) (at_start a w) = (Ok (d1, l1), w1) ->
  In row (df_rows d1) -> cell (df_cols d1) (snd row) f = i -> i <> VNA ->
  match cond with None => True | Some c => cell (df_cols d1) (snd row) c = VBool true end ->
  exists s', nth_error (w_stories w') a = Some s' /\ static s s' /\ In i (st_forced s') /\
    remaining_of s' i = Some (Some 0%Z).
Proof.
  intros H Hs Nd Hd Ho Hc1 Hrow Hcell Hna Hcond. rewrite (at_start_unforced _ _ _ Hs) in Hc1.
  pose proof (execute_ok _ _ _ _ H) as (s0 & H0 & Hex). rewrite Hs in H0. injection H0 as <-.
  destruct Hex as [(E & _)|(_ & dd & w2 & w3 & Hc & Hm & Ht)]; [tauto|].
  change (story_rows (st_field s) (due_members s)) with (init_story_data (st_field s) (due_members s)) in Hc1.
  rewrite Ho in Hc. unfold run_chain in Hc, Hc1. rewrite run_list_app in Hc. unfold bindM in Hc. rewrite Hc1 in Hc.
  change (run_list run_op (OpForce a f cond :: ops2) d1 l1 w1 = (Ok (dd, l), w2)) in Hc. cbn [run_list] in Hc.
  mstep Hc. destruct x as [d2 l2]. apply force_op_ok in E; [|intros Ez; rewrite Ez in Hrow; destruct Hrow].
  destruct E as (-> & -> & ids & Eids & Ef). mstep Hc. apply lift_ok in E. destruct E as [_ ->].
  assert (Hi : In i ids) by (apply (force_ids_In _ _ _ _ Eids); split; [exact Hna|]; exists row; auto).
  apply story_force_ok in Ef. destruct Ef as (s1 & s2 & Es1 & Ef & Ew).
  destruct (force_spec _ _ _ _ Ef) as (St2 & _ & Hf2 & Hk & Hr2 & _).
  specialize (Hr2 eq_refl i). specialize (Hk eq_refl i Hi).
  assert (Hrem : remaining_of s2 i = Some (Some 0%Z)).
  { rewrite Hr2. rewrite (proj2 (mem_In i ids) Hi). unfold remaining_of. unfold st_ids in Hk.
    destruct (dget i (st_timer s1)) eqn:Eg; [reflexivity|]. apply dget_None in Eg. tauto. }
  assert (Hfor : In i (st_forced s2)) by (apply Hf2; now right).
  (* static from the beginning *)
  destruct (chain_static ops1 (init_story_data (st_field s) (due_members s)) (unforced a s w)) as [_ Sc].
  unfold run_chain in Sc. rewrite Hc1 in Sc. cbn [snd] in Sc.
  destruct (Sc a (with_forced s [])) as (s1' & Es1' & St1).
  { cbn [unforced w_stories set_stories]. eapply nth_put_same; eauto. }
  rewrite Es1 in Es1'. injection Es1' as <-.
  (* the rest of the chain *)
  assert (Hw0 : nth_error (w_stories w0) a = Some s2) by (rewrite Ew; cbn; eapply nth_put_same; eauto).
  assert (Hrest : stories_rel (forced_same a i) w0 w2).
  { assert (G : forall ops d l0 w l' d' w', run_list run_op ops d l0 w = (Ok (d', l'), w') -> stories_rel (forced_same a i) w w').
    { intros ops d l0 v l' d' v' Hrun. pose proof (run_list_logs run_op ops d l0 v) as HL.
      pose proof (chain_forced a i ops d v) as HC. unfold run_chain in HC.
      destruct (run_list run_op ops d [] v) as [[[d'' l'']|e] v''].
      - destruct HL as (l2' & HL & _). rewrite Hrun in HL. injection HL as _ _ <-. exact HC.
      - rewrite Hrun in HL. discriminate. }
    eapply G; eauto. }
  destruct Hrest as [_ Hrest]. destruct (Hrest a s2 Hw0) as (s3 & Es3 & St3 & F3).
  destruct (F3 eq_refl Hfor Hrem) as [Hfor3 Hrem3].
  assert (exists s4, nth_error (w_stories w3) a = Some s4 /\ static s3 s4 /\ In i (st_forced s4) /\
            remaining_of s4 i = Some (Some 0%Z)) as (s4 & Es4 & St4 & Hfor4 & Hrem4).
  { destruct (st_auto s).
    - apply story_reset_ok in Hm. destruct Hm as (s5 & s6 & g & g' & E5 & _ & Er & ->).
      rewrite Es3 in E5. injection E5 as <-. exists s6. cbn [w_stories set_stories set_tgens].
      destruct (reset_forced a i a _ _ _ _ _ Er) as [St6 F6]. destruct (F6 eq_refl Hfor3 Hrem3).
      split; [eapply nth_put_same; eauto|]. auto.
    - apply story_tick_ok in Hm. destruct Hm as (s5 & s6 & E5 & Er & ->).
      rewrite Es3 in E5. injection E5 as <-. exists s6. cbn [w_stories set_stories set_tgens].
      destruct (tick_forced a i a _ _ _ Er) as [St6 F6]. destruct (F6 eq_refl Hfor3 Hrem3).
      split; [eapply nth_put_same; eauto|]. auto. }
  apply story_tick_ok in Ht. destruct Ht as (s5 & s6 & E5 & Er & ->). rewrite Es4 in E5. injection E5 as <-.
  destruct (tick_forced a i a _ _ _ Er) as [St6 F6]. destruct (F6 eq_refl Hfor4 Hrem4).
  exists s6. split; [cbn; eapply nth_put_same; eauto|]. split; [|auto].
  eapply static_trans; [apply static_forced|]. eapply static_trans; [exact St1|]. eapply static_trans; [exact St2|].
  eapply static_trans; [exact St3|]. eapply static_trans; [exact St4|]. exact St6.
Qed.

Lemma self_force_again a w l w' s ops1 f cond ops2 d1 l1 w1 i row h :
  execute a w = (Ok l, w') -> nth_error (w_stories w) a = Some s -> NoDup (st_ids s) ->
  due_members s <> [] ->
  st_ops s = ops1 ++ OpForce a f cond :: ops2 ->
  run_chain ops1 (story_rows (st_field s) (due_members s)) (at_start a w) = (Ok (d1, l1), w1) ->
  In row (df_rows d1) -> cell (df_cols d1) (snd row) f = i -> i <> VNA ->
  match cond with None => True | Some c => cell (df_cols d1) (snd row) c = VBool true end ->
  executions a h = 0 -> acts_now (after w' h) a i.
Proof.
  intros H Hs Nd Hd Ho Hc1 Hrow Hcell Hna Hcond Hh.
  destruct (self_force _ _ _ _ _ _ _ _ _ _ _ _ _ _ H Hs Nd Hd Ho Hc1 Hrow Hcell Hna Hcond) as (s' & Es & St & Hf & Hr).
  destruct (after_forced a i h w' s' Hh Es Hf Hr) as (s2 & Es2 & St2 & _ & Hr2).
  apply (acts_now_iff _ _ _ s2); auto.
  assert (E : st_ids s2 = st_ids s).
  { destruct (static_trans _ _ _ St St2) as (_&_&_&_&_&_&_&_&E). exact E. }
  now rewrite E.
Qed.
