(** Properties of resets, states, parameters and creation of stories. *)
From Verif Require Import Base BaseFacts Rng RngFacts Utils UtilsFacts Relationship RelationshipFacts Frame Gens GensProps
  Clock SpecClock ClockProps Attribute AttributeFacts World Story Ops OpsFacts Fs Circus SpecStory StoryFacts StoryExec
  StoryProps SpecOps OpsProps OpsColumns StoryMore.

(** ** reset_timers *)
Lemma declared_activity s i st q : declared s Activity i st = Some q -> activity_in s i st q.
Proof.
  unfold declared. destruct (dget i (st_params s)) as [states|] eqn:E; [|discriminate].
  destruct (dget st states) as [ab|] eqn:E2; [|discriminate]. intros [= <-].
  exists states, ab. split; [now apply dget_In|]. split; [now apply dget_In|reflexivity].
Qed.
Lemma declared_back s i st q : declared s BackProb i st = Some q -> back_probability_in s i st q.
Proof.
  unfold declared. destruct (dget i (st_params s)) as [states|] eqn:E; [|discriminate].
  destruct (dget st states) as [ab|] eqn:E2; [|discriminate]. intros [= <-].
  exists states, ab. split; [now apply dget_In|]. split; [now apply dget_In|reflexivity].
Qed.

Lemma effective_current s i st : In "default"%string (st_states s) -> state_of s i = Some st ->
  In st (st_states s) -> forall st', effective_state s i = Some st' -> st' = st.
Proof.
  intros Hd Hs Hi st'. unfold effective_state, get_possible_states.
  destruct (Nat.eqb_spec (length (st_states s)) 1) as [L|_].
  - destruct (st_states s) as [|x [|y l]]; cbn in L; try lia. destruct Hi as [->|[]], Hd as [->|[]].
    destruct (mem i _); congruence.
  - congruence.
Qed.

Lemma param_current s p ids l i st q : get_param s p ids = Ok l -> In "default"%string (st_states s) ->
  In (i, q) l -> state_of s i = Some st -> In st (st_states s) -> declared s p i st = Some q.
Proof.
  intros H Hd Hi Hs Hst. destruct (get_param_values _ _ _ _ H i q Hi) as (st' & He & Hq).
  now rewrite (effective_current s i st Hd Hs Hst st' He) in Hq.
Qed.

Lemma NoDup_isort_uniq (l : list val) : NoDup (isort val_leb (uniq l)).
Proof. apply isort_NoDup, uniq_NoDup. Qed.

Lemma index_difference_NoDup a b : NoDup a -> NoDup (index_difference a b).
Proof.
  intros H. unfold index_difference. destruct (list_eqb a b); [constructor|]. destruct b; [exact H|apply NoDup_isort_uniq].
Qed.

Lemma reset_addressed s ids i : In i (reset_ids s ids) <->
  (match ids with Some l => In i l | None => In i (st_ids s) end) /\ ~ In i (st_forced s).
Proof. unfold reset_ids. rewrite index_difference_In. now destruct ids. Qed.

Lemma reset_rows s g ids s' g' : reset_timers s g ids = Ok (s', g') -> NoDup (st_ids s) ->
  match ids with Some l => NoDup l | None => True end ->
  exists activities counters, map fst activities = reset_ids s ids /\
    (activities <> [] -> tgen_generate g activities = Ok (counters, g')) /\
    (forall i q, In (i, q) activities -> exists st, effective_state s i = Some st /\ declared s Activity i st = Some q) /\
    (forall i, In i (reset_ids s ids) -> exists q t, In (i, q) activities /\ In (i, t) counters /\
       remaining_of s' i = Some (if Qeq_bool q 0 then Some (-1)%Z else t)) /\
    (forall i, ~ In i (reset_ids s ids) -> remaining_of s' i = remaining_of s i) /\
    (forall i, state_of s' i = state_of s i) /\ static s s' /\ st_forced s' = st_forced s.
Proof.
  intros H Nd Ndi. destruct (reset_spec _ _ _ _ _ H) as (St & Hf & Hst & Hno & Hnil & Hsome).
  assert (Nr : NoDup (reset_ids s ids)).
  { unfold reset_ids. apply index_difference_NoDup. destruct ids; assumption. }
  destruct (reset_ids s ids) as [|x xs] eqn:E.
  - exists [], []. split; [reflexivity|]. split; [congruence|]. split; [intros ? ? []|]. split; [intros ? []|]. auto.
  - rewrite <- E in *. destruct Hsome as (act & out & Ha & Hg & Hk & Hkn & Hv); [rewrite E; discriminate|].
    pose proof (get_param_keys _ _ _ _ Ha) as Hka.
    exists act, out. split; [exact Hka|]. split; [auto|]. split; [|split; [|auto]].
    + intros i q Hi. eapply get_param_values; eauto.
    + intros i Hi. rewrite <- Hka in Hi. apply in_map_iff in Hi. destruct Hi as ([j q] & <- & Hi).
      destruct (Hv Nr j q Hi) as (t & Ht & Hr). exists q, t. auto.
Qed.

(** a reset leaves the other stories alone *)
Lemma reset_others a ids w u w' b : story_reset a ids w = (Ok u, w') -> b <> a ->
  nth_error (w_stories w') b = nth_error (w_stories w) b.
Proof.
  intros H N. apply story_reset_ok in H. destruct H as (s & s' & g & g' & _ & _ & _ & ->).
  cbn [w_stories set_stories set_tgens]. apply nth_put_other. auto.
Qed.

(** ** Transitions *)
Lemma dget_last_combine (ids : list val) (states : list string) i : length ids = length states ->
  dget_last i (combine ids states) <> None <-> In i ids.
Proof.
  intros L. unfold dget_last. destruct (dget i (rev (combine ids states))) eqn:E.
  - split; [intros _|intros; discriminate]. apply dget_Some_key in E. unfold dkeys in E. rewrite map_rev, <- in_rev in E.
    rewrite map_fst_combine in E by exact L. exact E.
  - split; [congruence|]. intros Hi. exfalso. apply dget_None in E. apply E. unfold dkeys. rewrite map_rev, <- in_rev.
    now rewrite map_fst_combine.
Qed.

Lemma dget_last_app_one (l : list (val * string)) k v i :
  dget_last i (l ++ [(k, v)]) = if keqb i k then Some v else dget_last i l.
Proof. unfold dget_last. rewrite rev_app_distr. reflexivity. Qed.

Lemma transit_states s ids states s' : transit_to_state s ids states = Ok s' ->
  (forall i, state_of s' i = match state_of s i with
                             | None => None
                             | Some st => Some (match dget_last i (combine ids states) with Some x => x | None => st end)
                             end) /\
  (forall i, remaining_of s' i = remaining_of s i) /\ static s s' /\ st_forced s' = st_forced s /\
  length ids = length states /\ (forall i, In i ids -> In i (st_ids s)).
Proof.
  intros H.
  destruct (transit_spec _ _ _ _ H) as (L & K & St & Hf & E).
  split; [|split; [intros i; eapply transit_remaining; eauto|split; [exact St|split; [exact Hf|split; [exact L|now apply known_spec]]]]].
  intros i. rewrite E. unfold state_of at 1. rewrite retimed_dget. unfold state_of.
  destruct (dget i (st_timer s)) as [[st r]|]; reflexivity.
Qed.

(** ** Unknown ids *)
Lemma unknown_raises h a i w s : nth_error (w_stories w) a = Some s -> ~ In i (st_ids s) -> ~ In i (st_forced s) ->
  names h a i -> exists e, fst (happen h w) = Err e /\
    length (w_stories (snd (happen h w))) = length (w_stories w) /\
    forall b sb, nth_error (w_stories w) b = Some sb ->
      exists sb', nth_error (w_stories (snd (happen h w))) b = Some sb' /\ st_timer sb' = st_timer sb.
Proof.
  intros Hs Hn Hnf Hh.
  assert (Same : forall w', w_stories w' = w_stories w -> length (w_stories w') = length (w_stories w) /\
     forall b sb, nth_error (w_stories w) b = Some sb -> exists sb', nth_error (w_stories w') b = Some sb' /\ st_timer sb' = st_timer sb).
  { intros w' E. rewrite E. split; [reflexivity|]. eauto. }
  destruct h; cbn [names] in Hh; try contradiction.
  - destruct Hh as [-> Hi]. cbn [happen].
    destruct (force_act_next s ids) as [res s'] eqn:E.
    assert (Hk : known s ids = false).
    { destruct (known s ids) eqn:K; [|reflexivity]. exfalso. apply Hn. now apply (proj1 (known_spec _ _) K). }
    unfold force_act_next in E. destruct ids as [|x ids]; [destruct Hi|]. rewrite Hk in E. cbn [negb] in E.
    injection E as <- <-. exists KeyError. unfold story_force, bindM, deref. rewrite Hs.
    unfold force_act_next. rewrite Hk. cbn [negb]. unfold put_story, modify, lift. cbn [fst snd]. split; [reflexivity|].
    cbn [w_stories set_stories]. split; [apply set_nth_length|]. intros b sb Hb. rewrite nth_error_set_nth.
    destruct (Nat.eqb_spec a b) as [Eb|Nb]; [|eauto]. subst b. rewrite Hb. assert (sb = s) by congruence. subst. eauto.
  - destruct ids as [ids|]; [|contradiction]. destruct Hh as [-> Hi]. cbn [happen].
    unfold story_reset, bindM, deref. rewrite Hs. destruct (nth_error (w_tgens w) (st_tgen s)) as [g|]; [|eexists; split; [reflexivity|]; now apply Same].
    unfold lift. destruct (reset_timers s g (Some ids)) as [[s' g']|e] eqn:E; [|eexists; split; [reflexivity|]; now apply Same].
    exfalso. destruct (reset_spec _ _ _ _ _ E) as (_ & _ & _ & _ & _ & Hsome).
    assert (Hr : In i (reset_ids s (Some ids))) by (apply reset_addressed; auto).
    destruct Hsome as (act & out & _ & _ & _ & Hkn & _); [intros E0; rewrite E0 in Hr; destruct Hr|]. apply Hn, Hkn, Hr.
  - destruct Hh as [-> Hi]. cbn [happen]. unfold story_transit, bindM, deref. rewrite Hs. unfold lift.
    destruct (transit_to_state s ids states) as [s'|e] eqn:E; [|eexists; split; [reflexivity|]; now apply Same].
    exfalso. apply transit_states in E. destruct E as (_ & _ & _ & _ & _ & K). auto.
  - destruct Hh as [-> Hi]. cbn [happen]. unfold story_tick, bindM, deref. rewrite Hs. unfold lift.
    destruct (timer_tick s ids) as [s'|e] eqn:E; [|eexists; split; [reflexivity|]; now apply Same].
    exfalso. unfold timer_tick in E. fold (tick_ids s ids) in E. destruct (known s (tick_ids s ids)) eqn:K; [|discriminate].
    apply Hn. apply (proj1 (known_spec _ _) K). apply tick_ids_In. auto.
Qed.
