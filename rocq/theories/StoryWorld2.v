(** The story lemmas in the words of the specification, continued: states, resets by
    operations, members. *)
From Verif Require Import Base BaseFacts Rng RngFacts Utils UtilsFacts Relationship RelationshipFacts Frame Gens GensProps
  Clock SpecClock ClockProps Attribute SpecAttribute AttributeFacts World Story Ops OpsFacts Fs Circus SpecStory StoryFacts StoryExec
  StoryProps SpecOps OpsProps OpsColumns StoryMore StoryStates StoryBack StoryDelay StoryNew SpecWorld WorldProps StoryWorld.
From Coq Require Import Permutation Lqa.

Lemma last_value_app {V} k (l m : list (val * V)) :
  last_value k (l ++ m) = match last_value k m with Some v => Some v | None => last_value k l end.
Proof.
  induction l as [|[k' v] l IH]; cbn; [now destruct (last_value k m)|]. rewrite IH. now destruct (last_value k m).
Qed.
Lemma dget_last_value {V} k (l : list (val * V)) : dget_last k l = last_value k l.
Proof.
  unfold dget_last. induction l as [|[k' v] l IH] using rev_ind; [reflexivity|].
  rewrite rev_app_distr, last_value_app. cbn. rewrite IH.
  change (val_eqb k' k) with (keqb k' k). rewrite (keqb_sym k' k). now destruct (keqb k k').
Qed.

Lemma w_transit a ids states w w' : happen (HTransit a ids states) w = (Ok tt, w') -> distinct_members w ->
  (forall i, In i ids -> exists st, last_value i (combine ids states) = Some st /\ in_state w' a i st) /\
  (forall i st, ~ In i ids -> (in_state w' a i st <-> in_state w a i st)) /\
  (forall i r, counter w' a i r <-> counter w a i r) /\
  (forall b, b <> a -> nth_error (w_stories w') b = nth_error (w_stories w) b).
Proof.
  intros H D. cbn [happen] in H. unfold story_transit in H. mstep H. apply deref_ok in E as [Hs ->]. rename x into s.
  mstep H. apply lift_ok in E as [E ->]. rename x into s'. injection H as <-. set (w' := set_stories _ _).
  assert (Hs' : nth_error (w_stories w') a = Some s') by (cbn; eapply nth_put_same; eauto).
  pose proof (D _ _ Hs) as Nd. change (map fst (st_timer s)) with (st_ids s) in Nd.
  destruct (transit_states _ _ _ _ E) as (Hst & Hr & St & _ & Hl & Hk).
  assert (Nd' : NoDup (st_ids s')) by (eapply static_nodup; eauto).
  assert (Hin : forall i, In i (st_ids s) -> exists st, state_of s i = Some st).
  { intros i Hi. unfold state_of. destruct (dget i (st_timer s)) eqn:Ed; [eexists; reflexivity|]. apply dget_None in Ed. contradiction. }
  split; [|split; [|split]].
  - intros i Hi. apply (dget_last_combine ids states i Hl) in Hi as Hne. rewrite dget_last_value in Hne.
    destruct (last_value i (combine ids states)) as [st|] eqn:El; [|contradiction]. exists st. split; [reflexivity|].
    apply (in_state_iff _ _ _ _ s' Hs' Nd'). rewrite Hst. destruct (Hin i (Hk i Hi)) as (st0 & ->).
    now rewrite dget_last_value, El.
  - intros i st Hi. rewrite (in_state_iff _ _ _ _ s' Hs' Nd'), (in_state_iff _ _ _ _ s Hs Nd), Hst.
    destruct (dget_last i (combine ids states)) eqn:El.
    + exfalso. apply Hi, (dget_last_combine ids states i Hl). congruence.
    + destruct (state_of s i); reflexivity.
  - intros i r. rewrite (counter_iff _ _ _ _ s' Hs' Nd'), (counter_iff _ _ _ _ s Hs Nd). now rewrite Hr.
  - intros b Hb. cbn. now apply nth_put_other, not_eq_sym.
Qed.

Lemma w_param a w s p ids l : nth_error (w_stories w) a = Some s -> distinct_members w -> sound_states w a ->
  get_param s p ids = Ok l ->
  map fst l = ids /\
  forall i q, In (i, q) l -> forall st, in_state w a i st ->
    match p with Activity => activity_in s i st q | BackProb => back_probability_in s i st q end.
Proof.
  intros Hs D Hso H. split; [eapply get_param_keys; eauto|]. intros i q Hq st Hst.
  pose proof (D _ _ Hs) as Nd. destruct (Hso _ Hs) as [Hdef Hdecl].
  assert (Hin : In st (st_states s)).
  { destruct Hst as (s2 & r & H2 & Hi). assert (s2 = s) by congruence. subst. eauto. }
  apply (in_state_iff _ _ _ _ s Hs Nd) in Hst.
  pose proof (param_current _ _ _ _ _ _ _ H Hdef Hq Hst Hin) as Hd.
  destruct p; [now apply declared_activity|now apply declared_back].
Qed.

(** ** Back to default *)
Lemma w_back a w l w' s ops judge : execute a w = (Ok l, w') -> distinct_members w -> sound_states w a ->
  nth_error (w_stories w) a = Some s -> st_ops s = ops ++ [OpBack a judge] ->
  (forall o, In o ops -> changes_states a o = false) -> uniform_generator w judge ->
  exists survivors, incl survivors (due_members s) /\
    ((forall o, In o ops -> drops_rows o = false) -> survivors = due_members s) /\
    (forall i st, ~ In i survivors -> (in_state w' a i st <-> in_state w a i st)) /\
    (forall i, in_state w a i "default"%string -> in_state w' a i "default"%string) /\
    (forall i st, In i survivors -> in_state w a i st -> st <> "default"%string ->
       (in_state w' a i st \/ in_state w' a i "default"%string) /\
       ((forall q, back_probability_in s i st q -> (1 <= q)%Q) -> in_state w' a i "default"%string) /\
       ((forall q, back_probability_in s i st q -> (q <= 0)%Q) -> in_state w' a i st)).
Proof.
  intros H D Hso Hs Hops Hch Hu. pose proof (D _ _ Hs) as Nd. change (map fst (st_timer s)) with (st_ids s) in Nd.
  destruct (Hso _ Hs) as [Hdef Hdecl].
  destruct (due_members s) as [|x due] eqn:Edue.
  - destruct (exec_idle_states _ _ _ _ _ H Hs Edue) as (s' & Hs' & St & Hst).
    assert (Nd' : NoDup (st_ids s')) by (eapply static_nodup; eauto).
    exists []. split; [intros i []|]. split; [reflexivity|].
    assert (K : forall i st, in_state w' a i st <-> in_state w a i st).
    { intros i st. rewrite (in_state_iff _ _ _ _ s' Hs' Nd'), (in_state_iff _ _ _ _ s Hs Nd). now rewrite Hst. }
    split; [intros; apply K|]. split; [intros i; apply K|]. intros i st [].
  - assert (Hne : due_members s <> []) by (rewrite Edue; discriminate). rewrite <- Edue. clear Edue x due.
    destruct (exec_back _ _ _ _ _ _ _ H Hs Nd Hops Hch Hu Hdef Hne) as
      (d1 & l1 & w1 & s' & moved & Hrun & Hincl & Hs' & St & Hst & Hmv & Hp).
    assert (Nd' : NoDup (st_ids s')) by (eapply static_nodup; eauto).
    assert (K : forall i st, in_state w' a i st <-> (if mem i moved then option_map (fun _ => "default"%string) (state_of s i) else state_of s i) = Some st).
    { intros i st. now rewrite (in_state_iff _ _ _ _ s' Hs' Nd'), Hst. }
    exists (df_index d1). split; [exact Hincl|]. split.
    { intros Hd. apply chain_keeps_index in Hrun; [|exact Hd]. now rewrite Hrun, story_rows_index. }
    split; [|split].
    + intros i st Hn. rewrite K, (in_state_iff _ _ _ _ s Hs Nd). destruct (mem i moved) eqn:Em; [|reflexivity].
      apply mem_In in Em. exfalso. auto.
    + intros i Hi. apply (in_state_iff _ _ _ _ s Hs Nd) in Hi. apply K. rewrite Hi. now destruct (mem i moved).
    + intros i st Hi Hst0 Hnd.
      assert (Hin : In st (st_states s)).
      { destruct Hst0 as (s2 & r & H2 & Hii). assert (s2 = s) by congruence. subst. eauto. }
      apply (in_state_iff _ _ _ _ s Hs Nd) in Hst0.
      destruct (Hp i st Hi Hst0 Hin Hnd) as (q & Hq & H0 & H1). apply declared_back in Hq.
      split; [|split].
      * rewrite !K, Hst0. destruct (mem i moved); cbn; auto.
      * intros Hall. apply K. specialize (Hall q Hq). apply H1, mem_In in Hall. rewrite Hall, Hst0. reflexivity.
      * intros Hall. apply K. specialize (Hall q Hq). apply H0 in Hall.
        destruct (mem i moved) eqn:Em; [apply mem_In in Em; contradiction|exact Hst0].
Qed.

(** ** Resets lead to an action *)
Lemma active_story w a i s : always_active w a i -> nth_error (w_stories w) a = Some s ->
  forall st q, activity_in s i st q -> (0 < q)%Q.
Proof. intros (s2 & H2 & H) Hs. assert (s2 = s) by congruence. subst. exact H. Qed.

(** A member with a delay as counter acts, exactly once the delay has elapsed. *)
Lemma delay_acts a w1 i s n : distinct_members w1 -> nth_error (w_stories w1) a = Some s ->
  remaining_of s i = Some (Some (Z.of_nat n)) ->
  counter w1 a i (Some (Z.of_nat n)) /\
  forall l w2, history w1 l w2 -> nobody_reschedules w1 a l -> n < executions a l -> acts_at a i w1 l n.
Proof.
  intros D Hs R. assert (C : counter w1 a i (Some (Z.of_nat n))) by (apply (counter_iff _ _ _ _ s Hs (D _ _ Hs)); exact R).
  split; [exact C|]. intros l w2 H N E. apply (w_on_time a w1 l w2 i n n D H N C (le_n _)). auto.
Qed.

Lemma happen_distinct h w : distinct_members w -> distinct_members (snd (happen h w)).
Proof.
  intros D b s' Hs'. pose proof (happen_static h w) as [Hl R].
  destruct (nth_error (w_stories w) b) as [s|] eqn:E.
  - destruct (R b s E) as (s2 & H2 & St). assert (s2 = s') by congruence. subst. exact (static_nodup _ _ St (D _ _ E)).
  - apply nth_error_None in E. assert (b < length (w_stories (snd (happen h w)))) by (apply nth_error_Some; congruence). lia.
Qed.
Lemma after_distinct l : forall w, distinct_members w -> distinct_members (after w l).
Proof. induction l as [|h l IH]; intros w D; cbn [after]; [exact D|]. apply IH. now apply happen_distinct. Qed.
Lemma exec_distinct a w l w' : execute a w = (Ok l, w') -> distinct_members w -> distinct_members w'.
Proof. intros H D. pose proof (happen_distinct (HExec a) w D) as K. cbn [happen] in K. rewrite H in K. exact K. Qed.

Lemma w_user_reset a ids w w' s i g : happen (HReset a ids) w = (Ok tt, w') -> distinct_members w ->
  nth_error (w_stories w) a = Some s -> match ids with Some l => NoDup l | None => True end ->
  timer_generator w a g -> delays g -> always_active w a i -> ~ is_forced w a i -> reset_names s ids i ->
  exists n, counter w' a i (Some (Z.of_nat n)) /\
    forall l w2, history w' l w2 -> nobody_reschedules w' a l -> n < executions a l -> acts_at a i w' l n.
Proof.
  intros H D Hs Hids (s2 & H2 & Hg) Hd Hact Hnf Hn. assert (s2 = s) by congruence. subst s2.
  destruct (user_reset _ _ _ _ _ _ _ H Hs (D _ _ Hs) Hids Hg Hd Hn) as (n & s' & Hs' & St & R).
  - intros F. apply Hnf. exists s. auto.
  - exact (active_story _ _ _ _ Hact Hs).
  - exists n. eapply delay_acts; eauto. pose proof (happen_distinct (HReset a ids) w D) as K. rewrite H in K. exact K.
Qed.

Lemma w_other_reset a b w l w' sb g i f ops1 ops2 d1 l1 w1 :
  execute b w = (Ok l, w') -> a <> b -> distinct_members w -> nth_error (w_stories w) b = Some sb ->
  timer_generator w a g -> delays g -> always_active w a i -> ~ is_forced w a i ->
  due_members sb <> [] -> st_ops sb = ops1 ++ OpReset a f :: ops2 ->
  (forall o, In o (ops1 ++ ops2) -> reschedules a o = false) ->
  run_chain ops1 (story_rows (st_field sb) (due_members sb)) (at_start b w) = (Ok (d1, l1), w1) ->
  names_row f d1 i ->
  exists n, counter w' a i (Some (Z.of_nat n)) /\
    forall h w2, history w' h w2 -> nobody_reschedules w' a h -> n < executions a h -> acts_at a i w' h n.
Proof.
  intros H Hab D Hb (s & Hs & Hg) Hd Hact Hnf Hdue Hops Hre Hrun Hrow.
  assert (F : ~ In i (st_forced s)) by (intros F; apply Hnf; exists s; auto).
  destruct (other_reset a b w l w' s sb g i f ops1 ops2 d1 l1 w1 H Hab Hs Hb (D _ _ Hs) (D _ _ Hb) Hg Hd F
              (active_story _ _ _ _ Hact Hs) Hdue Hops Hre Hrun Hrow) as (n & s' & Hs' & St & R).
  exists n. eapply delay_acts; eauto. eapply exec_distinct; eauto.
Qed.

(** ** Members of a story *)
Lemma w_members l w a s : nth_error (w_stories w) a = Some s ->
  exists s', nth_error (w_stories (after w l)) a = Some s' /\ map fst (st_timer s') = map fst (st_timer s).
Proof.
  intros Hs. destruct (stories_rel_at _ _ _ _ (after_static l w) _ Hs) as (s' & H' & St). exists s'. split; [exact H'|].
  destruct St as (_&_&_&_&_&_&_&_&E). exact E.
Qed.

Lemma w_unknown h a i w s : nth_error (w_stories w) a = Some s -> ~ In i (map fst (st_timer s)) -> ~ is_forced w a i ->
  names h a i -> (exists e, fst (happen h w) = Err e) /\
    forall b j r st, (counter (snd (happen h w)) b j r <-> counter w b j r) /\
                     (in_state (snd (happen h w)) b j st <-> in_state w b j st).
Proof.
  intros Hs Hi Hf Hn. destruct (unknown_raises h a i w s Hs Hi) as (e & He & Hl & Hb); auto.
  { intros F. apply Hf. exists s. auto. }
  split; [eauto|]. intros b j r st. set (w' := snd (happen h w)) in *.
  assert (K : forall sb', nth_error (w_stories w') b = Some sb' -> exists sb, nth_error (w_stories w) b = Some sb /\ st_timer sb' = st_timer sb).
  { intros sb' H'. destruct (nth_error (w_stories w) b) as [sb|] eqn:E.
    - destruct (Hb _ _ E) as (s2 & H2 & E2). exists sb. split; [reflexivity|congruence].
    - apply nth_error_None in E. assert (b < length (w_stories w')) by (apply nth_error_Some; congruence). lia. }
  unfold counter, in_state. split; split.
  - intros (sb' & x & H1 & H2). destruct (K _ H1) as (sb & E1 & E2). exists sb, x. now rewrite <- E2.
  - intros (sb & x & H1 & H2). destruct (Hb _ _ H1) as (sb' & E1 & E2). exists sb', x. now rewrite E2.
  - intros (sb' & x & H1 & H2). destruct (K _ H1) as (sb & E1 & E2). exists sb, x. now rewrite <- E2.
  - intros (sb & x & H1 & H2). destruct (Hb _ _ H1) as (sb' & E1 & E2). exists sb', x. now rewrite E2.
Qed.

(** ** A member rescheduled by the automatic reset *)
Lemma w_auto_bin a w l w' s y p start cstep k i :
  execute a w = (Ok l, w') -> distinct_members w -> nth_error (w_stories w) a = Some s -> st_auto s = true ->
  (forall o, In o (st_ops s) -> reschedules a o = false) ->
  nth_error (w_tgens w) (st_tgen s) = Some (TCyclic y) -> live p start cstep k y ->
  always_active w a i -> acts_now w a i ->
  exists n, counter w' a i (Some (Z.of_nat n)) /\
    (1 <= n -> ((Z.of_nat n + 1) mod Z.of_nat (y_bins y) <> 0)%Z ->
     (0 < weight_at p (bin_start p start cstep (Z.of_nat k + Z.of_nat n + 1)))%Q).
Proof.
  intros H D Hs Ha Hre Hg Hl Hact Hnow. apply (acts_now_iff _ _ _ s Hs (D _ _ Hs)) in Hnow.
  destruct (auto_reset_bin _ _ _ _ _ _ _ _ _ _ _ H Hs (D _ _ Hs) Ha Hre Hg Hl (active_story _ _ _ _ Hact Hs) Hnow)
    as (n & s' & Hs' & St & R & Hw).
  exists n. split; [|exact Hw]. apply (counter_iff _ _ _ _ s' Hs'); [|exact R]. exact (static_nodup _ _ St (D _ _ Hs)).
Qed.

Lemma w_self_force a w l w' s ops1 f cond ops2 d1 l1 w1 i row h :
  execute a w = (Ok l, w') -> distinct_members w -> nth_error (w_stories w) a = Some s ->
  due_members s <> [] -> st_ops s = ops1 ++ OpForce a f cond :: ops2 ->
  run_chain ops1 (story_rows (st_field s) (due_members s)) (at_start a w) = (Ok (d1, l1), w1) ->
  In row (df_rows d1) -> cell (df_cols d1) (snd row) f = i -> i <> VNA ->
  match cond with None => True | Some c => cell (df_cols d1) (snd row) c = VBool true end ->
  executions a h = 0 -> acts_now (after w' h) a i.
Proof. intros H D Hs. apply (self_force_again a w l w' s ops1 f cond ops2 d1 l1 w1 i row h H Hs (D _ _ Hs)). Qed.

Lemma w_due w a s i : distinct_members w -> nth_error (w_stories w) a = Some s ->
  (In i (due_members s) <-> counter w a i (Some 0%Z)).
Proof.
  intros D Hs. rewrite (counter_iff _ _ _ _ s Hs (D _ _ Hs)). apply due_iff. exact (D _ _ Hs).
Qed.
Lemma w_idle a w s : nth_error (w_stories w) a = Some s -> due_members s = [] -> exists w', execute a w = (Ok [], w').
Proof. intros Hs Hd. destruct (exec_nobody _ _ _ Hs Hd) as (s' & H & _). eauto. Qed.

(** A story in which nobody is scheduled stays so when only it and the clock run. *)
Definition asleep (w : world) (a : nat) : Prop :=
  exists s, nth_error (w_stories w) a = Some s /\ NoDup (st_ids s) /\
    forall i, remaining_of s i = None \/ remaining_of s i = Some (Some (-1)%Z).
Lemma asleep_due w a s : asleep w a -> nth_error (w_stories w) a = Some s -> due_members s = [].
Proof.
  intros (s2 & H2 & Nd & H) Hs. assert (s2 = s) by congruence. subst. destruct (due_members s) as [|i l] eqn:E; [reflexivity|].
  assert (In i (due_members s)) as Hi by (rewrite E; now left). apply (due_iff s i Nd) in Hi. destruct (H i); congruence.
Qed.
Lemma asleep_exec w a : asleep w a -> asleep (snd (execute a w)) a.
Proof.
  intros A. pose proof A as (s & Hs & Nd & H). pose proof (asleep_due _ _ _ A Hs) as Hd.
  destruct (exec_nobody _ _ _ Hs Hd) as (s' & -> & St & _ & Hr). exists s'. cbn.
  split; [eapply nth_put_same; eauto|]. split; [eapply static_nodup; eauto|]. intros i. rewrite (Hr Nd).
  destruct (H i) as [-> | ->]; cbn; auto.
Qed.
Lemma asleep_steps a i n : forall w k, asleep w a -> ~ acts_at a i w (concat (repeat [HExec a; HClock] n)) k.
Proof.
  induction n as [|n IH]; intros w k A H; cbn [repeat concat app] in H.
  - inversion H.
  - pose proof A as (s & Hs & _).
    assert (K : forall k', ~ acts_at a i (snd (happen (HExec a) w)) (HClock :: concat (repeat [HExec a; HClock] n)) k').
    { intros k' A'. apply (acts_at_skip a i _ HClock _ k' ltac:(discriminate)) in A'. revert A'. apply IH. rewrite snd_exec.
      apply asleep_exec in A as (s' & H' & P'). exists s'. cbn [happen snd]. rewrite increment_stories. auto. }
    destruct k as [|k].
    + apply acts_at_0 in H. destruct H as (s2 & H2 & Hi). rewrite (asleep_due _ _ _ A H2) in Hi. destruct Hi.
    + apply acts_at_S in H. exact (K _ H).
Qed.
