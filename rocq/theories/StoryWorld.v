(** The story lemmas, in the words of the specification. *)
From Verif Require Import Base BaseFacts Rng RngFacts Utils UtilsFacts Relationship RelationshipFacts Frame Gens GensProps
  Clock SpecClock ClockProps Attribute AttributeFacts World Story Ops OpsFacts Fs Circus SpecStory StoryFacts StoryExec
  StoryProps SpecOps OpsProps OpsColumns StoryMore StoryStates StoryBack StoryDelay StoryNew SpecWorld WorldProps.
From Coq Require Import Permutation Lqa.

Lemma NoDup_fst_eq {A B} (l : list (A * B)) k x y : NoDup (map fst l) -> In (k, x) l -> In (k, y) l -> x = y.
Proof.
  induction l as [|[k' z] l IH]; cbn; [easy|]. inversion 1 as [|? ? Hn Nd]; subst. intros [[= -> ->]|H1] [[= E]|H2]; auto.
  - exfalso. apply Hn. apply in_map_iff. exists (k, y). auto.
  - subst. exfalso. apply Hn. apply in_map_iff. exists (k, x). auto.
Qed.

Lemma counter_story w a i r : distinct_members w -> counter w a i r ->
  exists s, nth_error (w_stories w) a = Some s /\ NoDup (st_ids s) /\ remaining_of s i = Some r.
Proof.
  intros D C. pose proof C as (s & st & Hs & _). exists s. split; [exact Hs|]. split; [exact (D _ _ Hs)|].
  apply (counter_iff w a i r s Hs (D _ _ Hs)). exact C.
Qed.

Lemma static_nodup s s' : static s s' -> NoDup (st_ids s) -> NoDup (st_ids s').
Proof. intros (_&_&_&_&_&_&_&_&E). now rewrite E. Qed.

Lemma w_on_time a w l w' i n k : distinct_members w -> history w l w' -> nobody_reschedules w a l ->
  counter w a i (Some (Z.of_nat n)) -> k <= n -> (acts_at a i w l k <-> k = n /\ n < executions a l).
Proof.
  intros D H N C Hk. destruct (counter_story _ _ _ _ D C) as (s & Hs & Nd & R). eapply acts_on_time; eauto.
Qed.

Lemma w_inactive a w l w' i r : distinct_members w -> history w l w' -> nobody_reschedules w a l ->
  counter w a i r -> match r with Some n => (n < 0)%Z | None => True end ->
  (forall k, ~ acts_at a i w l k) /\ counter w' a i r.
Proof.
  intros D H N C Hr. destruct (counter_story _ _ _ _ D C) as (s & Hs & Nd & R).
  assert (Hr' : forall n, r = Some n -> (n < 0)%Z) by (intros n ->; exact Hr). split.
  - intros k. eapply acts_inactive; eauto.
  - destruct (history_inactive _ _ _ _ _ _ _ H N Hs Nd R Hr') as (s' & Hs' & St & R').
    apply (counter_iff _ _ _ _ s'); eauto. eapply static_nodup; eauto.
Qed.

Lemma w_force a ids w w1 i l : distinct_members w -> happen (HForce a ids) w = (Ok tt, w1) -> In i ids ->
  executions a l = 0 -> acts_now (after w1 l) a i.
Proof.
  intros D H Hi El. cbn [happen] in H. apply story_force_ok in H as (s & s' & Hs & Ef & ->).
  destruct (force_spec _ _ _ _ Ef) as (St & _ & Hf & Hk & Hr & _).
  assert (Hs' : nth_error (w_stories (set_stories (set_nth a s' (w_stories w)) w)) a = Some s').
  { cbn. eapply nth_put_same; eauto. }
  destruct (after_forced a i l _ s' El Hs') as (s2 & H2 & St2 & _ & R2).
  - apply Hf. now right.
  - rewrite (Hr eq_refl). apply mem_In in Hi as Hm. rewrite Hm. specialize (Hk eq_refl i Hi).
    unfold remaining_of. unfold st_ids in Hk. destruct (dget i (st_timer s)) eqn:E; [reflexivity|].
    apply dget_None in E. contradiction.
  - apply (acts_now_iff _ _ _ s2 H2); [|exact R2]. eapply static_nodup; [exact St2|]. eapply static_nodup; [exact St|]. exact (D _ _ Hs).
Qed.

Lemma w_once a w l w' i n k : distinct_members w -> history w l w' -> nobody_reschedules w a l ->
  auto_reset w a false -> counter w a i (Some n) -> acts_at a i w l k ->
  (forall k', acts_at a i w l k' -> k' = k) /\ counter w' a i (Some (-1)%Z).
Proof.
  intros D H N (s0 & Hs0 & Ha) C A. destruct (counter_story _ _ _ _ D C) as (s & Hs & Nd & R).
  assert (s0 = s) by congruence. subst s0.
  destruct (Z_lt_le_dec n 0) as [Hn|Hn].
  { exfalso. eapply acts_inactive; eauto. intros z [= <-]. exact Hn. }
  rewrite <- (Z2Nat.id n Hn) in R.
  destruct (acts_once _ _ _ _ _ _ _ _ H N Hs Nd Ha R A) as (-> & s' & Hs' & R'). split.
  - intros k' A'. now destruct (acts_once _ _ _ _ _ _ _ _ H N Hs Nd Ha R A').
  - apply (counter_iff _ _ _ _ s' Hs'); [|exact R'].
    apply history_after in H. subst w'. destruct (stories_rel_at _ _ _ _ (after_static l w) _ Hs) as (s2 & H2 & St).
    assert (s2 = s') by congruence. subst. eapply static_nodup; eauto.
Qed.

Lemma w_const a w l w' i c n k : distinct_members w -> history w l w' -> nobody_reschedules w a l ->
  auto_reset w a true -> constant_timer w a (Z.of_nat c) -> never_idle w a i ->
  counter w a i (Some (Z.of_nat n)) -> n <= c ->
  (acts_at a i w l k <-> k < executions a l /\ exists m, k = n + m * (c + 1)).
Proof.
  intros D H N (s0 & Hs0 & Ha) (s1 & Hs1 & Hc) (s2 & Hs2 & Hi) C Hn.
  destruct (counter_story _ _ _ _ D C) as (s & Hs & Nd & R).
  assert (s0 = s) by congruence. assert (s1 = s) by congruence. assert (s2 = s) by congruence. subst.
  eapply acts_const; eauto.
Qed.

Lemma w_created order name p f default states t auto w a w' :
  create_story order name p f default states t auto w = (Ok a, w') -> (forall l, Permutation (order l) l) ->
  exists po s, nth_error (w_pops w) p = Some po /\ nth_error (w_stories w') a = Some s /\
    map fst (st_timer s) = p_ids po /\ st_auto s = auto /\ st_field s = f /\
    (forall i, In i (p_ids po) -> exists r, In (i, ("default"%string, r)) (st_timer s)) /\
    (NoDup (p_ids po) -> auto = false -> forall i, In i (p_ids po) -> counter w' a i (Some (-1)%Z)) /\
    (NoDup (p_ids po) -> auto = true -> forall c, nth_error (w_tgens w) t = Some (TConst c) ->
       forall i, In i (p_ids po) -> never_idle w' a i -> counter w' a i (Some c)).
Proof.
  intros H Ho. destruct (created _ _ _ _ _ _ _ _ _ _ _ H Ho) as
    (po & s & Hp & Hw & Ha & Hs & Hi & Hname & Hau & Ht & Hf & Hfo & Hop & Hst & _ & Hm & Hc).
  exists po, s. split; [exact Hp|]. split; [exact Hs|]. split; [exact Hi|]. split; [exact Hau|]. split; [exact Hf|]. split.
  - intros i Hin. specialize (Hst i Hin). unfold state_of in Hst. destruct (dget i (st_timer s)) as [[st r]|] eqn:E; [|discriminate].
    cbn in Hst. injection Hst as ->. exists r. now apply dget_In.
  - split; intros Nd Hauto.
    + intros i Hin. apply (counter_iff _ _ _ _ s Hs); [now rewrite Hi|]. auto.
    + intros c Hc0 i Hin (s2 & Hs2 & Hidle). assert (s2 = s) by congruence. subst s2.
      apply (counter_iff _ _ _ _ s Hs); [now rewrite Hi|]. apply Hc; auto.
      intros st q (sts & ab & H1 & H2 & ->). eauto.
Qed.

(** ** reset_timers *)
Lemma w_reset a ids w w' s g : happen (HReset a ids) w = (Ok tt, w') -> distinct_members w -> sound_states w a ->
  nth_error (w_stories w) a = Some s -> nth_error (w_tgens w) (st_tgen s) = Some g ->
  match ids with Some l => NoDup l | None => True end ->
  exists activities counters,
    (forall i, In i (map fst activities) <-> reset_names s ids i /\ ~ is_forced w a i) /\
    (activities <> [] -> exists g', tgen_generate g activities = Ok (counters, g')) /\
    (forall i q, In (i, q) activities -> exists st, in_state w a i st /\ activity_in s i st q) /\
    (forall i q, In (i, q) activities -> (q == 0)%Q -> counter w' a i (Some (-1)%Z)) /\
    (forall i q, In (i, q) activities -> ~ (q == 0)%Q -> exists t, In (i, t) counters /\ counter w' a i t) /\
    (forall i r, ~ (reset_names s ids i /\ ~ is_forced w a i) -> (counter w' a i r <-> counter w a i r)) /\
    (forall i st, in_state w' a i st <-> in_state w a i st) /\
    (forall b, b <> a -> nth_error (w_stories w') b = nth_error (w_stories w) b).
Proof.
  intros H D Hso Hs Hg Hids. cbn [happen] in H.
  assert (Ho : forall b, b <> a -> nth_error (w_stories w') b = nth_error (w_stories w) b) by (intros b; eapply reset_others; eauto).
  unfold story_reset in H. mstep H. apply deref_ok in E as [Hs0 ->]. assert (x = s) by congruence. subst x.
  mstep H. apply deref_ok in E as [Hg0 ->]. assert (x = g) by congruence. subst x. mstep H. apply lift_ok in E as [E ->].
  destruct x as [s' g']. mstep H. injection E0 as _ <-. injection H as <-.
  set (w' := set_stories _ _).
  assert (Hs' : nth_error (w_stories w') a = Some s') by (cbn; eapply nth_put_same; eauto).
  pose proof (D _ _ Hs) as Nd. change (map fst (st_timer s)) with (st_ids s) in Nd.
  destruct (reset_rows _ _ _ _ _ E Nd Hids) as (act & cnt & Hk & Hgn & Hv & Hr & Hnr & Hst & St & _).
  assert (Nd' : NoDup (st_ids s')) by (eapply static_nodup; eauto).
  assert (Hadd : forall i, In i (reset_ids s ids) <-> reset_names s ids i /\ ~ is_forced w a i).
  { intros i. rewrite reset_addressed. unfold is_forced. split.
    - intros [A B]. split; [exact A|]. intros (s2 & H2 & F). assert (s2 = s) by congruence. subst. auto.
    - intros [A B]. split; [exact A|]. intros F. apply B. eauto. }
  assert (Nda : NoDup (map fst act)).
  { rewrite Hk. unfold reset_ids. apply index_difference_NoDup. destruct ids; [exact Hids|exact Nd]. }
  destruct (Hso _ Hs) as [Hdef Hdecl].
  exists act, cnt. split; [intros i; rewrite Hk; apply Hadd|]. split; [intros Hne; exists g'; auto|]. split.
  - intros i q Hq. destruct (Hv i q Hq) as (st & He & Hd). apply declared_activity in Hd as Hact.
    assert (Hin : In i (st_ids s)).
    { assert (In i (reset_ids s ids)) as Hin by (rewrite <- Hk; apply in_map_iff; exists (i, q); auto).
      destruct (Hr i Hin) as (q2 & t2 & _ & _ & R). unfold remaining_of in R.
      destruct (dget i (st_timer s')) eqn:Ed; [|discriminate]. apply dget_Some_key in Ed.
      destruct St as (_&_&_&_&_&_&_&_&Ei). unfold st_ids in Ei at 1. rewrite <- Ei. exact Ed. }
    destruct (state_of s i) as [cur|] eqn:Ec.
    + exists cur. split; [now apply (in_state_iff _ _ _ _ s Hs Nd)|].
      assert (In cur (st_states s)).
      { unfold state_of in Ec. destruct (dget i (st_timer s)) as [[xx r]|] eqn:Ed; [|discriminate]. cbn in Ec. injection Ec as ->.
        apply dget_In in Ed. eauto. }
      rewrite <- (effective_current s i cur Hdef Ec H st He). exact Hact.
    + exfalso. unfold state_of in Ec. destruct (dget i (st_timer s)) eqn:Ed; [discriminate|]. apply dget_None in Ed. contradiction.
  - split; [|split; [|split; [|split; [|exact Ho]]]].
    + intros i q Hq Hz. assert (Hin : In i (reset_ids s ids)) by (rewrite <- Hk; apply in_map_iff; exists (i, q); auto).
      destruct (Hr i Hin) as (q2 & t2 & Hq2 & _ & R). assert (q2 = q) by (eapply NoDup_fst_eq; eauto). subst q2.
      apply (counter_iff _ _ _ _ s' Hs' Nd'). rewrite R. apply Qeq_bool_iff in Hz. now rewrite Hz.
    + intros i q Hq Hz. assert (Hin : In i (reset_ids s ids)) by (rewrite <- Hk; apply in_map_iff; exists (i, q); auto).
      destruct (Hr i Hin) as (q2 & t2 & Hq2 & Ht & R). assert (q2 = q) by (eapply NoDup_fst_eq; eauto). subst q2.
      exists t2. split; [exact Ht|]. apply (counter_iff _ _ _ _ s' Hs' Nd'). rewrite R.
      destruct (Qeq_bool q 0) eqn:Eq; [apply Qeq_bool_iff in Eq; contradiction|reflexivity].
    + intros i r Hn. rewrite (counter_iff _ _ _ _ s' Hs' Nd'), (counter_iff _ _ _ _ s Hs Nd).
      rewrite Hnr; [reflexivity|]. rewrite Hadd. exact Hn.
    + intros i st. rewrite (in_state_iff _ _ _ _ s' Hs' Nd'), (in_state_iff _ _ _ _ s Hs Nd). now rewrite Hst.
Qed.
