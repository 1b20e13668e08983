(** Counters of a story that only its own operations force (C143). *)
From Verif Require Import Base BaseFacts Rng Utils UtilsFacts Relationship RelationshipFacts Frame Gens
  Clock SpecClock Attribute World Story Ops OpsFacts Fs Circus SpecStory StoryFacts StoryExec
  StoryProps SpecOps OpsProps OpsColumns StoryMore StoryStates GeographyLog.

Lemma list_timed a ops d l0 w d' l w' : (forall o, In o ops -> reschedules a o = false) -> run_list run_op ops d l0 w = (Ok (d', l), w') -> stories_rel (timed_same a) w w'.
Proof.
  intros Hn H. pose proof (run_list_logs run_op ops d l0 w) as HL. pose proof (chain_timed a ops d w Hn) as HC. unfold run_chain in HC.
  destruct (run_list run_op ops d [] w) as [[[d'' l'']|e] w'']; [destruct HL as (l2 & HL & _); rewrite H in HL; injection HL as _ _ <-; exact HC|rewrite H in HL; discriminate].
Qed.

Lemma same_effective s s' i : static s s' -> state_of s' i = state_of s i -> effective_state s' i = effective_state s i.
Proof. intros (_ & _ & _ & _ & _ & Es & Ep & _ & _) E. unfold effective_state, get_possible_states. now rewrite Es, Ep, E. Qed.
Lemma same_declared s s' p i st : static s s' -> declared s' p i st = declared s p i st.
Proof. intros (_ & _ & _ & _ & _ & _ & Ep & _ & _). unfold declared. now rewrite Ep. Qed.

(** Members who are not due keep counting down (or stay inactive); those who are due and not forced again get a
    counter as their activity in their state at the end says. *)
Lemma self_forced a w l w' s ops1 f cond ops2 : execute a w = (Ok l, w') -> nth_error (w_stories w) a = Some s -> NoDup (st_ids s) ->
  st_ops s = ops1 ++ OpForce a f cond :: ops2 -> (forall o, In o (ops1 ++ ops2) -> reschedules a o = false) ->
  (forall d1 l1 w1, run_chain ops1 (story_rows (st_field s) (due_members s)) (at_start a w) = (Ok (d1, l1), w1) ->
     forall row, In row (df_rows d1) -> In (cell (df_cols d1) (snd row) f) (due_members s)) ->
  exists s', nth_error (w_stories w') a = Some s' /\ static s s' /\
    (forall i r, remaining_of s i = Some r -> r <> Some 0%Z -> remaining_of s' i = Some (ticked r)) /\
    (st_auto s = true -> forall i, remaining_of s i = Some (Some 0%Z) ->
       (exists d1 l1 w1 row, run_chain ops1 (story_rows (st_field s) (due_members s)) (at_start a w) = (Ok (d1, l1), w1) /\ In row (df_rows d1) /\
          cell (df_cols d1) (snd row) f = i /\ match cond with None => True | Some c => cell (df_cols d1) (snd row) c = VBool true end) \/
       exists st q t, effective_state s' i = Some st /\ declared s' Activity i st = Some q /\ remaining_of s' i = Some (if Qeq_bool q 0 then Some (-1)%Z else t)).
Proof.
  intros H Hs Nd Ho Hn Hd. rewrite (at_start_unforced _ _ _ Hs) in *.
  assert (Hu : nth_error (w_stories (unforced a s w)) a = Some (with_forced s [])) by (cbn; eapply nth_put_same; eauto).
  assert (Hin : forall i r, remaining_of s i = Some r -> r <> Some 0%Z -> In i (snd (active_inactive_ids s))) by (intros i r Hr N; apply inactive_iff; eauto).
  assert (Hout : forall i, remaining_of s i = Some (Some 0%Z) -> ~ In i (snd (active_inactive_ids s))).
  { intros i Hr K. apply inactive_iff in K; [|exact Nd]. destruct K as (r & H1 & H2). congruence. }
  pose proof (execute_ok _ _ _ _ H) as (s0 & H0 & Hex). rewrite Hs in H0. injection H0 as <-.
  destruct Hex as [(Ed & -> & Ht)|(Ed & dd & w2 & w3 & Hc & Hm & Ht)].
  { apply story_tick_ok in Ht as (s1 & s' & H1 & Ht & ->). rewrite Hu in H1. injection H1 as <-. destruct (tick_spec _ _ _ Ht) as (S & F & _ & T).
    exists s'. split; [cbn; eapply nth_put_same; eapply nth_put_same; eauto|]. split; [eapply static_trans; [apply static_forced|exact S]|]. split.
    - intros i r Hr N. rewrite T. replace (mem i _) with true; [change (remaining_of (with_forced s []) i) with (remaining_of s i); now rewrite Hr|].
      symmetry. apply mem_In, tick_ids_In. split; [eauto|intros []].
    - intros _ i Hr. apply due_iff in Hr; [|exact Nd]. rewrite Ed in Hr. destruct Hr. }
  unfold run_chain in Hc. rewrite Ho, run_list_app in Hc. apply bindM_ok in Hc as ([d1 l1] & w1 & R1 & Hc). apply run_list_step in Hc as (d2 & l2 & v2 & all & R2 & _ & R3).
  specialize (Hd d1 l1 w1 R1).
  destruct (list_timed a _ _ _ _ _ _ _ (fun o K => Hn o (in_or_app _ _ _ (or_introl K))) R1) as [_ T1]. destruct (T1 a _ Hu) as (s1 & E1 & S1 & X1). destruct (X1 eq_refl) as [F1 Q1]. clear T1 X1.
  assert (exists s2, nth_error (w_stories v2) a = Some s2 /\ static s1 s2 /\ incl (st_forced s2) (due_members s) /\
    (forall i, In i (st_forced s2) -> exists row, In row (df_rows d1) /\ cell (df_cols d1) (snd row) f = i /\ match cond with None => True | Some c => cell (df_cols d1) (snd row) c = VBool true end) /\
    (forall i, ~ In i (st_forced s2) -> remaining_of s2 i = remaining_of s1 i)) as (s2 & E2 & S2 & F2 & Z2 & Q2).
  { destruct (df_rows d1) as [|r0 rs] eqn:Er.
    - cbn [run_op] in R2. apply bindM_ok in R2 as (u & v & R2 & R). injection R as <- <- <-. unfold if_rows in R2. rewrite Er in R2. injection R2 as _ ->.
      exists s1. split; [exact E1|]. split; [apply static_refl|]. rewrite F1. split; [intros i []|]. split; [intros i []|reflexivity].
    - apply force_op_ok in R2; [|rewrite Er; discriminate]. destruct R2 as (-> & -> & ids & Ei & R2). rewrite <- Er in Hd.
      assert (Hi : incl ids (due_members s)). { intros i K. apply (force_ids_In _ _ _ _ Ei) in K as (_ & row & K & <- & _). exact (Hd row K). }
      apply story_force_ok in R2 as (s1' & s2 & E1' & Ef & ->). assert (s1' = s1) by congruence. subst s1'.
      destruct (force_spec _ _ _ _ Ef) as (St & _ & Hf & _ & Hr & _). specialize (Hr eq_refl).
      exists s2. split; [cbn; eapply nth_put_same; eauto|]. split; [exact St|]. split; [|split].
      + intros i K. apply Hf in K as [K|K]; [rewrite F1 in K; destruct K|auto].
      + intros i K. apply Hf in K as [K|K]; [rewrite F1 in K; destruct K|]. apply (force_ids_In _ _ _ _ Ei) in K as (_ & row & K). exists row. rewrite <- Er. exact K.
      + intros i K. rewrite Hr. destruct (mem i ids) eqn:Em; [|reflexivity]. apply mem_In in Em. exfalso. apply K, Hf. now right. }
  destruct (list_timed a _ _ _ _ _ _ _ (fun o K => Hn o (in_or_app _ _ _ (or_intror K))) R3) as [_ T3]. destruct (T3 a _ E2) as (s3 & E3 & S3 & X3). destruct (X3 eq_refl) as [F3 Q3]. clear T3 X3.
  assert (S03 : static s s3) by (eapply static_trans; [apply static_forced|]; eapply static_trans; [exact S1|]; eapply static_trans; [exact S2|exact S3]).
  assert (Nf : forall i r, remaining_of s i = Some r -> r <> Some 0%Z -> ~ In i (st_forced s3) /\ ~ In i (due_members s)).
  { intros i r Hr N. assert (~ In i (due_members s)) by (intros K; apply due_iff in K; [congruence|exact Nd]). split; [|assumption]. rewrite F3. intros K. apply F2 in K. contradiction. }
  assert (Q03 : forall i, ~ In i (st_forced s3) -> remaining_of s3 i = remaining_of s i).
  { intros i K. rewrite F3 in K. now rewrite Q3, (Q2 _ K), Q1. }
  apply story_tick_ok in Ht as (s4 & s' & E4 & Ht & ->). destruct (tick_spec _ _ _ Ht) as (S5 & F5 & P5 & Q5).
  assert (static s3 s4 /\ st_forced s4 = st_forced s3 /\ (forall i r, remaining_of s i = Some r -> r <> Some 0%Z -> remaining_of s4 i = Some r) /\
    (st_auto s = true -> forall i, remaining_of s i = Some (Some 0%Z) -> In i (st_forced s2) \/
       exists st q t, effective_state s4 i = Some st /\ declared s4 Activity i st = Some q /\ remaining_of s4 i = Some (if Qeq_bool q 0 then Some (-1)%Z else t))) as (S4 & F4 & Q4 & Z4).
  { destruct (st_auto s).
    - apply story_reset_ok in Hm as (s5 & s6 & g & g' & E5 & _ & Er & ->). assert (s5 = s3) by congruence. subst s5.
      cbn [w_stories set_stories set_tgens] in E4. rewrite (nth_put_same _ _ _ _ E5) in E4. injection E4 as <-.
      assert (N3 : NoDup (st_ids s3)) by (destruct S03 as (_&_&_&_&_&_&_&_&->); exact Nd).
      destruct (reset_rows _ _ _ _ _ Er N3 (NoDup_due _ Nd)) as (act & out & _ & _ & Hact & Hres & Hno & Hst & St & Hf).
      split; [exact St|]. split; [exact Hf|]. split.
      + intros i r Hr N. destruct (Nf i r Hr N) as [N1 N2]. rewrite Hno, (Q03 _ N1); [exact Hr|]. rewrite reset_addressed. tauto.
      + intros _ i Hz. destruct (in_dec key_dec i (st_forced s3)) as [K|K].
        * left. now rewrite F3 in K.
        * right. destruct (Hres i) as (q & t & Hq & _ & Hr). { apply reset_addressed. split; [now apply due_iff|exact K]. }
          destruct (Hact _ _ Hq) as (st & He & Hdq). exists st, q, t. rewrite (same_effective s3 s6 i St (Hst i)), (same_declared s3 s6 _ _ _ St). auto.
    - apply story_tick_ok in Hm as (s5 & s6 & E5 & Er & ->). assert (s5 = s3) by congruence. subst s5.
      cbn [w_stories set_stories] in E4. rewrite (nth_put_same _ _ _ _ E5) in E4. injection E4 as <-.
      destruct (tick_spec _ _ _ Er) as (St & Hf & Hst & Hq). split; [exact St|]. split; [exact Hf|]. split; [|discriminate].
      intros i r Hr N. destruct (Nf i r Hr N) as [N1 N2]. rewrite Hq. replace (mem i (tick_ids s3 (due_members s))) with false; [now rewrite (Q03 _ N1)|].
      symmetry. apply mem_not_In. rewrite tick_ids_In. tauto. }
  exists s'. split; [cbn; eapply nth_put_same; eauto|]. split; [eapply static_trans; [exact S03|]; eapply static_trans; [exact S4|exact S5]|]. split.
  - intros i r Hr N. destruct (Nf i r Hr N) as [N1 N2]. rewrite Q5. replace (mem i _) with true; [now rewrite (Q4 _ _ Hr N)|].
    symmetry. apply mem_In, tick_ids_In. rewrite F4. split; [eauto|exact N1].
  - intros Ea i Hz. assert (Eq : remaining_of s' i = remaining_of s4 i).
    { rewrite Q5. replace (mem i _) with false; [reflexivity|]. symmetry. apply mem_not_In. rewrite tick_ids_In. intros [K _]. exact (Hout i Hz K). }
    rewrite Eq, (same_effective s4 s' i S5 (P5 i)). destruct (Z4 Ea i Hz) as [K|(st & q & t & K1 & K2 & K3)]; [left|right].
    { destruct (Z2 i K) as (row & K'). exists d1, l1, w1, row. split; [exact R1|exact K']. }
     exists st, q, t. rewrite (same_declared s4 s' _ _ _ S5). auto.
Qed.
