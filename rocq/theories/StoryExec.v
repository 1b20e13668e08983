(** What one execution of a story, and one happening, does to all stories. *)
From Verif Require Import Base BaseFacts Rng Utils Relationship RelationshipFacts Frame Gens GensProps Clock Attribute AttributeFacts World Story Ops OpsFacts Fs Circus SpecStory StoryFacts.

(** ** Relations between the stories of two worlds *)
Definition stories_rel (R : nat -> story -> story -> Prop) (w w' : world) : Prop :=
  length (w_stories w') = length (w_stories w) /\
  forall b s, nth_error (w_stories w) b = Some s ->
    exists s', nth_error (w_stories w') b = Some s' /\ R b s s'.

Lemma stories_rel_weaken (R R' : nat -> story -> story -> Prop) w w' :
  (forall b s s', R b s s' -> R' b s s') -> stories_rel R w w' -> stories_rel R' w w'.
Proof. intros H [L S]. split; [exact L|]. intros b s E. destruct (S b s E) as (s' & E' & HR). eauto. Qed.

Section Rel.
  Context (R : nat -> story -> story -> Prop) (okf okr okt : nat -> Prop).
  Hypothesis Rrefl : forall b s, R b s s.
  Hypothesis Rtrans : forall b s1 s2 s3, R b s1 s2 -> R b s2 s3 -> R b s1 s3.
  Hypothesis Rf : forall a s ids, okf a -> R a s (snd (force_act_next s ids)).
  Hypothesis Rr : forall a s g ids s' g', okr a -> reset_timers s g ids = Ok (s', g') -> R a s s'.
  Hypothesis Rt : forall a s ids states s', okt a -> transit_to_state s ids states = Ok s' -> R a s s'.

  Lemma sr_same w w' : w_stories w' = w_stories w -> stories_rel R w w'.
  Proof. intros E. split; [now rewrite E|]. intros b s Hb. rewrite E. eauto. Qed.

  Lemma sr_refl w : stories_rel R w w.
  Proof. now apply sr_same. Qed.

  Lemma sr_trans w1 w2 w3 : stories_rel R w1 w2 -> stories_rel R w2 w3 -> stories_rel R w1 w3.
  Proof.
    intros [L1 S1] [L2 S2]. split; [congruence|]. intros b s Hb.
    destruct (S1 b s Hb) as (s1 & H1 & R1). destruct (S2 b s1 H1) as (s2 & H2 & R2). eauto.
  Qed.

  Lemma sr_put w a s s' : nth_error (w_stories w) a = Some s -> R a s s' ->
    stories_rel R w (set_stories (set_nth a s' (w_stories w)) w).
  Proof.
    intros Ha HR. split; [cbn; apply set_nth_length|]. intros b sb Hb. cbn [w_stories set_stories].
    rewrite nth_error_set_nth. destruct (Nat.eqb_spec a b) as [E|N].
    - subst b. rewrite Hb. assert (sb = s) by congruence. subst. eauto.
    - eauto.
  Qed.

  Lemma sr_force a ids : okf a -> keeps (stories_rel R) (story_force a ids).
  Proof.
    intros Ha w. unfold story_force, bindM, deref.
    destruct (nth_error (w_stories w) a) as [s|] eqn:E; [|apply sr_refl].
    specialize (Rf a s ids Ha). destruct (force_act_next s ids) as [res s']. cbn in *.
    eapply sr_put; eauto.
  Qed.

  Lemma sr_reset a ids : okr a -> keeps (stories_rel R) (story_reset a ids).
  Proof.
    intros Ha w. unfold story_reset, bindM, deref.
    destruct (nth_error (w_stories w) a) as [s|] eqn:E; [|apply sr_refl].
    destruct (nth_error (w_tgens w) (st_tgen s)) as [g|]; [|apply sr_refl].
    unfold lift. destruct (reset_timers s g ids) as [[s' g']|e] eqn:Er; [|apply sr_refl].
    apply (sr_trans _ (set_tgens (set_nth (st_tgen s) g' (w_tgens w)) w)); [now apply sr_same|].
    apply (sr_put (set_tgens (set_nth (st_tgen s) g' (w_tgens w)) w) a s s'); [exact E|]. eapply Rr; eauto.
  Qed.

  Lemma sr_transit a ids states : okt a -> keeps (stories_rel R) (story_transit a ids states).
  Proof.
    intros Ha w. unfold story_transit, bindM, deref.
    destruct (nth_error (w_stories w) a) as [s|] eqn:E; [|apply sr_refl].
    unfold lift. destruct (transit_to_state s ids states) as [s'|e] eqn:Er; [|apply sr_refl].
    cbn. eapply sr_put; eauto.
  Qed.

  Lemma sr_chain ops :
    (forall a o, In o ops -> forces_story a o = true -> okf a) ->
    (forall a o, In o ops -> resets_story a o = true -> okr a) ->
    (forall a o, In o ops -> transits_story a o = true -> okt a) ->
    forall d, keeps (stories_rel R) (run_chain ops d).
  Proof.
    intros Hf Hr Ht d.
    apply (run_chain_keeps (stories_rel R) okf okr okt); auto using sr_refl.
    - apply sr_trans.
    - intros; now apply sr_same.
    - intros; now apply sr_same.
    - intros; now apply sr_same.
    - intros; now apply sr_same.
    - intros; now apply sr_same.
    - intros; now apply sr_same.
    - intros; now apply sr_force.
    - intros; now apply sr_reset.
    - intros; now apply sr_transit.
  Qed.
End Rel.

(** ** Calls on one story, seen from the world *)
Lemma story_tick_ok a ids w u w' : story_tick a ids w = (Ok u, w') ->
  exists s s', nth_error (w_stories w) a = Some s /\ timer_tick s ids = Ok s' /\
    w' = set_stories (set_nth a s' (w_stories w)) w.
Proof.
  unfold story_tick. intros H. apply bindM_ok in H. destruct H as (s & w1 & H1 & H).
  apply deref_ok in H1. destruct H1 as [H1 ->].
  apply bindM_ok in H. destruct H as (s' & w2 & H2 & H). apply lift_ok in H2. destruct H2 as [H2 ->].
  exists s, s'. split; [exact H1|]. split; [exact H2|]. now injection H as _ <-.
Qed.

Lemma story_reset_ok a ids w u w' : story_reset a ids w = (Ok u, w') ->
  exists s s' g g', nth_error (w_stories w) a = Some s /\ nth_error (w_tgens w) (st_tgen s) = Some g /\
    reset_timers s g ids = Ok (s', g') /\
    w' = set_stories (set_nth a s' (w_stories w)) (set_tgens (set_nth (st_tgen s) g' (w_tgens w)) w).
Proof.
  unfold story_reset. intros H. apply bindM_ok in H. destruct H as (s & w1 & H1 & H).
  apply deref_ok in H1. destruct H1 as [H1 ->].
  apply bindM_ok in H. destruct H as (g & w2 & H2 & H). apply deref_ok in H2. destruct H2 as [H2 ->].
  apply bindM_ok in H. destruct H as ([s' g'] & w3 & H3 & H). apply lift_ok in H3. destruct H3 as [H3 ->].
  exists s, s', g, g'. split; [exact H1|]. split; [exact H2|]. split; [exact H3|].
  now injection H as _ <-.
Qed.

Lemma story_transit_ok a ids states w u w' : story_transit a ids states w = (Ok u, w') ->
  exists s s', nth_error (w_stories w) a = Some s /\ transit_to_state s ids states = Ok s' /\
    w' = set_stories (set_nth a s' (w_stories w)) w.
Proof.
  unfold story_transit. intros H. apply bindM_ok in H. destruct H as (s & w1 & H1 & H).
  apply deref_ok in H1. destruct H1 as [H1 ->].
  apply bindM_ok in H. destruct H as (s' & w2 & H2 & H). apply lift_ok in H2. destruct H2 as [H2 ->].
  exists s, s'. split; [exact H1|]. split; [exact H2|]. now injection H as _ <-.
Qed.

Lemma story_force_ok a ids w u w' : story_force a ids w = (Ok u, w') ->
  exists s s', nth_error (w_stories w) a = Some s /\ force_act_next s ids = (Ok tt, s') /\
    w' = set_stories (set_nth a s' (w_stories w)) w.
Proof.
  unfold story_force. intros H. apply bindM_ok in H. destruct H as (s & w1 & H1 & H).
  apply deref_ok in H1. destruct H1 as [H1 ->].
  destruct (force_act_next s ids) as [res s'] eqn:Ef.
  apply bindM_ok in H. destruct H as ([] & w2 & H2 & H). apply lift_ok in H. destruct H as [H ->].
  destruct u. exists s, s'. split; [exact H1|]. split; [now rewrite Ef, H|]. now injection H2 as <-.
Qed.

Lemma nth_put_same {A} a (x : A) l y : nth_error l a = Some y -> nth_error (set_nth a x l) a = Some x.
Proof. intros H. rewrite nth_error_set_nth, Nat.eqb_refl, H. reflexivity. Qed.
Lemma nth_put_other {A} a b (x : A) l : a <> b -> nth_error (set_nth a x l) b = nth_error l b.
Proof. intros H. rewrite nth_error_set_nth. destruct (Nat.eqb_spec a b); [contradiction|reflexivity]. Qed.

(** ** execute *)
Definition unforced (a : nat) (s : story) (w : world) : world :=
  set_stories (set_nth a (with_forced s []) (w_stories w)) w.

(** The three parts of an execution that does not raise. *)
Lemma execute_ok a w l w' : execute a w = (Ok l, w') ->
  exists s, nth_error (w_stories w) a = Some s /\
  ((due_members s = [] /\ l = [] /\
    story_tick a (snd (active_inactive_ids s)) (unforced a s w) = (Ok tt, w')) \/
   (due_members s <> [] /\ exists d' w1 w2,
      run_chain (st_ops s) (init_story_data (st_field s) (due_members s)) (unforced a s w) = (Ok (d', l), w1) /\
      (if st_auto s then story_reset a (Some (due_members s)) else story_tick a (due_members s)) w1 = (Ok tt, w2) /\
      story_tick a (snd (active_inactive_ids s)) w2 = (Ok tt, w'))).
Proof.
  unfold execute. intros H. apply bindM_ok in H. destruct H as (s & w0 & H1 & H).
  apply deref_ok in H1. destruct H1 as [H1 ->]. exists s. split; [exact H1|].
  apply bindM_ok in H. destruct H as ([] & w0 & H0 & H). injection H0 as <-.
  change (set_stories (set_nth a (with_forced s []) (w_stories w)) w) with (unforced a s w) in H.
  rewrite active_spec in *. cbn [snd].
  apply bindM_ok in H. destruct H as (l0 & w3 & H3 & H).
  apply bindM_ok in H. destruct H as ([] & w4 & H4 & H). injection H as <- <-.
  destruct (due_members s) as [|x due] eqn:Ed.
  - left. injection H3 as <- <-. auto.
  - right. split; [discriminate|]. rewrite <- Ed in *.
    apply bindM_ok in H3. destruct H3 as ([d' l1] & w1 & H5 & H3).
    apply bindM_ok in H3. destruct H3 as ([] & w2 & H6 & H3). injection H3 as <- <-.
    exists d', w1, w2. auto.
Qed.

Lemma in_nonempty {A} (x : A) l : In x l -> l <> [].
Proof. destruct l; [intros []|discriminate]. Qed.

(** Stories other than [a], and the parts of [a] nothing changes. *)
Definition only_a_static (_ : nat) (s s' : story) : Prop := static s s'.

Lemma chain_static ops d w : stories_rel (fun _ => static) w (snd (run_chain ops d w)).
Proof.
  apply (sr_chain (fun _ => static) (fun _ => True) (fun _ => True) (fun _ => True)); auto.
  - intros; apply static_refl.
  - intros; eapply static_trans; eauto.
  - intros a s ids _. destruct (force_act_next s ids) as [res s'] eqn:E. cbn.
    now destruct (force_spec _ _ _ _ E).
  - intros a s g ids s' g' _ E. now destruct (reset_spec _ _ _ _ _ E).
  - intros a s ids states s' _ E. now destruct (transit_spec _ _ _ _ E) as (_ & _ & S & _).
Qed.

(** Story [a] is neither forced nor reset: it keeps forced set and counters. *)
Definition timed_same (a : nat) (b : nat) (s s' : story) : Prop :=
  static s s' /\ (b = a -> st_forced s' = st_forced s /\ forall i, remaining_of s' i = remaining_of s i).

Lemma timed_same_refl a b s : timed_same a b s s.
Proof. split; [apply static_refl|]. auto. Qed.
Lemma timed_same_trans a b s1 s2 s3 : timed_same a b s1 s2 -> timed_same a b s2 s3 -> timed_same a b s1 s3.
Proof.
  intros [A1 A2] [B1 B2]. split; [eapply static_trans; eauto|]. intros E.
  destruct (A2 E) as [A3 A4]. destruct (B2 E) as [B3 B4]. split; [congruence|]. intros i. now rewrite B4, A4.
Qed.

Lemma reschedules_split a o : reschedules a o = forces_story a o || resets_story a o.
Proof.
  induction o as [o Hb|ops IH] using op_ind'.
  - destruct o; cbn; try reflexivity; try (now destruct (_ =? _)).
    exfalso. eapply Hb. reflexivity.
  - cbn. induction ops as [|o ops IHops]; [reflexivity|]. inversion IH; subst.
    cbn. rewrite H1, IHops by assumption.
    destruct (forces_story a o), (resets_story a o), (existsb (forces_story a) ops), (existsb (resets_story a) ops); reflexivity.
Qed.

Lemma chain_timed a ops d w : (forall o, In o ops -> reschedules a o = false) ->
  stories_rel (timed_same a) w (snd (run_chain ops d w)).
Proof.
  intros Hn.
  apply (sr_chain (timed_same a) (fun b => b <> a) (fun b => b <> a) (fun _ => True)).
  - apply timed_same_refl.
  - apply timed_same_trans.
  - intros b s ids Hb. destruct (force_act_next s ids) as [res s'] eqn:E. cbn.
    destruct (force_spec _ _ _ _ E) as (S & _). split; [exact S|]. intros; contradiction.
  - intros b s g ids s' g' Hb E. destruct (reset_spec _ _ _ _ _ E) as (S & _).
    split; [exact S|]. intros; contradiction.
  - intros b s ids states s' _ E.
    destruct (transit_spec _ _ _ _ E) as (_ & _ & S & F & _). split; [exact S|]. intros _.
    split; [exact F|]. intros i. eapply transit_remaining; eauto.
  - intros b o Ho Hf ->. specialize (Hn o Ho). rewrite reschedules_split, Hf in Hn. discriminate.
  - intros b o Ho Hr ->. specialize (Hn o Ho). rewrite reschedules_split, Hr, orb_true_r in Hn. discriminate.
  - auto.
Qed.

(** forced members with counter 0 stay so, whatever the operations do *)
Definition forced_same (a : nat) (i : val) (b : nat) (s s' : story) : Prop :=
  static s s' /\ (b = a -> In i (st_forced s) -> remaining_of s i = Some (Some 0%Z) ->
                  In i (st_forced s') /\ remaining_of s' i = Some (Some 0%Z)).

Lemma forced_same_refl a i b s : forced_same a i b s s.
Proof. split; [apply static_refl|]. auto. Qed.
Lemma forced_same_trans a i b s1 s2 s3 :
  forced_same a i b s1 s2 -> forced_same a i b s2 s3 -> forced_same a i b s1 s3.
Proof.
  intros [A1 A2] [B1 B2]. split; [eapply static_trans; eauto|]. intros E F Z.
  destruct (A2 E F Z) as [A3 A4]. now apply B2.
Qed.

Lemma force_forced a i b s ids : forced_same a i b s (snd (force_act_next s ids)).
Proof.
  destruct (force_act_next s ids) as [res s'] eqn:E. cbn.
  destruct (force_spec _ _ _ _ E) as (S & _ & F & _ & Z & Z'). split; [exact S|]. intros _ Hf Hz.
  split; [apply F; auto|].
  destruct res as [[]|e].
  - rewrite (Z eq_refl). rewrite Hz. destruct (mem i ids); reflexivity.
  - destruct (Z' ltac:(discriminate)) as [_ Z2]. now rewrite Z2.
Qed.

Lemma reset_forced a i b s g ids s' g' : reset_timers s g ids = Ok (s', g') -> forced_same a i b s s'.
Proof.
  intros E. destruct (reset_spec _ _ _ _ _ E) as (S & F & _ & N & _).
  split; [exact S|]. intros _ Hf Hz. rewrite F. split; [exact Hf|]. rewrite N; [exact Hz|].
  unfold reset_ids. rewrite index_difference_In. tauto.
Qed.

Lemma transit_forced a i b s ids states s' : transit_to_state s ids states = Ok s' -> forced_same a i b s s'.
Proof.
  intros E. destruct (transit_spec _ _ _ _ E) as (_ & _ & S & F & _). split; [exact S|].
  intros _ Hf Hz. rewrite F. split; [exact Hf|]. erewrite transit_remaining; eauto.
Qed.

Lemma tick_forced a i b s ids s' : timer_tick s ids = Ok s' -> forced_same a i b s s'.
Proof.
  intros E. destruct (tick_spec _ _ _ E) as (S & F & _ & Z). split; [exact S|].
  intros _ Hf Hz. rewrite F. split; [exact Hf|]. rewrite Z.
  replace (mem i (tick_ids s ids)) with false; [exact Hz|]. symmetry. apply mem_not_In.
  rewrite tick_ids_In. tauto.
Qed.

Lemma chain_forced a i ops d w : stories_rel (forced_same a i) w (snd (run_chain ops d w)).
Proof.
  apply (sr_chain (forced_same a i) (fun _ => True) (fun _ => True) (fun _ => True)); auto.
  - apply forced_same_refl.
  - apply forced_same_trans.
  - intros b s ids _. apply force_forced.
  - intros b s g ids s' g' _ E. eapply reset_forced; eauto.
  - intros b s ids st s' _ E. eapply transit_forced; eauto.
Qed.

Lemma chain_rel {R ops d w} : stories_rel R w (snd (run_chain ops d w)) ->
  forall r w1, run_chain ops d w = (r, w1) -> stories_rel R w w1.
Proof. intros H r w1 E. rewrite E in H. exact H. Qed.

(** ** One execution of [a] whose operations do not reschedule [a] *)
Lemma exec_spec a w l w' s : execute a w = (Ok l, w') -> nth_error (w_stories w) a = Some s ->
  NoDup (st_ids s) -> (forall o, In o (st_ops s) -> reschedules a o = false) ->
  exists s', nth_error (w_stories w') a = Some s' /\ static s s' /\ st_forced s' = [] /\
    (forall i r, remaining_of s i = Some r -> r <> Some 0%Z -> remaining_of s' i = Some (ticked r)) /\
    (forall i, remaining_of s i = Some (Some 0%Z) -> st_auto s = false ->
       remaining_of s' i = Some (Some (-1)%Z)) /\
    (due_members s <> [] -> st_auto s = true -> exists s1 s2 g g',
       static s s1 /\ st_forced s1 = [] /\ (forall i, remaining_of s1 i = remaining_of s i) /\
       reset_timers s1 g (Some (due_members s)) = Ok (s2, g') /\
       (forall i, remaining_of s i = Some (Some 0%Z) -> remaining_of s' i = remaining_of s2 i) /\
       exists d1 w1, run_chain (st_ops s) (init_story_data (st_field s) (due_members s)) (unforced a s w)
                       = (Ok (d1, l), w1) /\
         nth_error (w_tgens w1) (st_tgen s) = Some g /\ w_tgens w' = set_nth (st_tgen s) g' (w_tgens w1)).
Proof.
  intros Hx Hs Nd Hops. apply execute_ok in Hx. destruct Hx as (s0 & Hs0 & Hx).
  assert (s0 = s) by congruence. subst s0.
  assert (Hu : nth_error (w_stories (unforced a s w)) a = Some (with_forced s [])).
  { cbn. eapply nth_put_same; eauto. }
  assert (Hin : forall i r, remaining_of s i = Some r -> r <> Some 0%Z -> In i (snd (active_inactive_ids s))).
  { intros i r Hr N. apply inactive_iff; eauto. }
  assert (Hout : forall i, remaining_of s i = Some (Some 0%Z) -> ~ In i (snd (active_inactive_ids s))).
  { intros i Hr H. apply inactive_iff in H; [|exact Nd]. destruct H as (r & H1 & H2). congruence. }
  destruct Hx as [(Ed & -> & Ht)|(Ed & d' & w1 & w2 & Hc & Hm & Ht)].
  - apply story_tick_ok in Ht. destruct Ht as (s1 & s' & H1 & Ht & ->).
    rewrite Hu in H1. injection H1 as <-.
    destruct (tick_spec _ _ _ Ht) as (S & F & _ & T).
    exists s'. split; [cbn; eapply nth_put_same; eapply nth_put_same; eauto|].
    split; [eapply static_trans; [apply static_forced|exact S]|]. split; [exact F|].
    split; [|split; [|intros; contradiction]].
    + intros i r Hr N. rewrite T.
      replace (mem i (tick_ids (with_forced s []) (snd (active_inactive_ids s)))) with true.
      * change (remaining_of (with_forced s []) i) with (remaining_of s i). rewrite Hr. reflexivity.
      * symmetry. apply mem_In, tick_ids_In. split; [eauto|intros []].
    + intros i Hr _. apply due_iff in Hr; [|exact Nd]. rewrite Ed in Hr. destruct Hr.
  - pose proof (chain_rel (chain_timed a _ _ _ Hops) _ _ Hc) as [_ Hc2].
    destruct (Hc2 a _ Hu) as (s1 & H1 & S1 & T1). destruct (T1 eq_refl) as [F1 R1].
    change (st_forced (with_forced s [])) with (@nil val) in F1.
    assert (R1' : forall i, remaining_of s1 i = remaining_of s i) by exact R1. clear R1 T1 Hc2.
    apply story_tick_ok in Ht. destruct Ht as (s2 & s' & H2 & Ht & ->).
    destruct (tick_spec _ _ _ Ht) as (S' & F' & _ & T').
    assert (Hmid : static s1 s2 /\ st_forced s2 = [] /\
       (forall i r, remaining_of s i = Some r -> r <> Some 0%Z -> remaining_of s2 i = Some r) /\
       (forall i, remaining_of s i = Some (Some 0%Z) -> st_auto s = false -> remaining_of s2 i = Some (Some (-1)%Z)) /\
       (st_auto s = true -> exists g g', reset_timers s1 g (Some (due_members s)) = Ok (s2, g') /\
          nth_error (w_tgens w1) (st_tgen s) = Some g /\ w_tgens w2 = set_nth (st_tgen s) g' (w_tgens w1))).
    { destruct (st_auto s) eqn:Ea.
      - apply story_reset_ok in Hm. destruct Hm as (s3 & s4 & g & g' & E1 & E2 & E3 & ->).
        assert (s3 = s1) by congruence. subst s3.
        cbn [w_stories set_stories set_tgens] in H2. rewrite (nth_put_same _ _ _ _ E1) in H2. injection H2 as ->.
        destruct (reset_spec _ _ _ _ _ E3) as (S2 & F2 & _ & N2 & _).
        split; [exact S2|]. split; [congruence|]. split.
        + intros i r Hr N. rewrite N2, R1'; [exact Hr|]. unfold reset_ids. rewrite index_difference_In.
          intros [Hd _]. apply due_iff in Hd; [congruence|exact Nd].
        + split; [discriminate|]. intros _. exists g, g'. split; [exact E3|].
          assert (Eg : st_tgen s1 = st_tgen s) by (destruct S1 as (_&_&_&Eg&_); exact Eg).
          rewrite <- Eg. split; [exact E2|reflexivity].
      - apply story_tick_ok in Hm. destruct Hm as (s3 & s4 & E1 & E3 & ->).
        assert (s3 = s1) by congruence. subst s3.
        cbn [w_stories set_stories] in H2. rewrite (nth_put_same _ _ _ _ E1) in H2. injection H2 as ->.
        destruct (tick_spec _ _ _ E3) as (S2 & F2 & _ & T2).
        split; [exact S2|]. split; [congruence|]. split; [|split; [|discriminate]].
        + intros i r Hr N. rewrite T2. replace (mem i (tick_ids s1 (due_members s))) with false; [now rewrite R1'|].
          symmetry. apply mem_not_In. rewrite tick_ids_In. intros [Hd _]. apply due_iff in Hd; [congruence|exact Nd].
        + intros i Hr _. rewrite T2. replace (mem i (tick_ids s1 (due_members s))) with true; [now rewrite R1', Hr|].
          symmetry. apply mem_In, tick_ids_In. rewrite F1. split; [now apply due_iff|intros []]. }
    destruct Hmid as (S2 & F2 & M1 & M2 & M3).
    exists s'. split; [cbn; eapply nth_put_same; eauto|].
    split; [eapply static_trans; [apply static_forced|eapply static_trans; [exact S1|eapply static_trans; eauto]]|].
    split; [congruence|].
    assert (Tk : forall i, remaining_of s i = Some (Some 0%Z) -> remaining_of s' i = remaining_of s2 i).
    { intros i Hr. rewrite T'. replace (mem i _) with false; [reflexivity|]. symmetry.
      apply mem_not_In. rewrite tick_ids_In. intros [H _]. eapply Hout; eauto. }
    split; [|split].
    + intros i r Hr N. rewrite T'. replace (mem i _) with true; [now rewrite (M1 _ _ Hr N)|].
      symmetry. apply mem_In, tick_ids_In. rewrite F2. split; [eauto|intros []].
    + intros i Hr Ea. rewrite (Tk _ Hr). auto.
    + intros _ Ea. destruct (M3 Ea) as (g & g' & E & Eg & Ew). exists s1, s2, g, g'.
      split; [eapply static_trans; [apply static_forced|exact S1]|]. repeat (split; [now auto|]).
      exists d', w1. auto.
Qed.

(** Execution of another story *)
Lemma exec_other (R : nat -> story -> story -> Prop) a b w l w' s :
  (forall b s, R b s s) -> (forall b s1 s2 s3, R b s1 s2 -> R b s2 s3 -> R b s1 s3) ->
  (forall s w0, nth_error (w_stories w) b = Some s -> stories_rel R w0 (snd (run_chain (st_ops s) (init_story_data (st_field s) (due_members s)) w0))) ->
  a <> b -> execute b w = (Ok l, w') -> nth_error (w_stories w) a = Some s ->
  exists s', nth_error (w_stories w') a = Some s' /\ R a s s'.
Proof.
  intros Rr Rt Hc N Hx Hs. apply execute_ok in Hx. destruct Hx as (sb & Hb & Hx).
  assert (Hu : nth_error (w_stories (unforced b sb w)) a = Some s).
  { cbn. rewrite nth_put_other by auto. exact Hs. }
  destruct Hx as [(_ & _ & Ht)|(_ & d' & w1 & w2 & Hch & Hm & Ht)].
  - apply story_tick_ok in Ht. destruct Ht as (s1 & s2 & _ & _ & ->). exists s. split; [|apply Rr].
    cbn [w_stories set_stories]. rewrite nth_put_other by auto. exact Hu.
  - destruct (chain_rel (Hc sb (unforced b sb w) Hb) _ _ Hch) as [_ S].
    destruct (S a s Hu) as (s1 & H1 & R1). exists s1. split; [|exact R1].
    apply story_tick_ok in Ht. destruct Ht as (s2 & s3 & _ & _ & ->).
    cbn [w_stories set_stories]. rewrite nth_put_other by auto.
    destruct (st_auto sb).
    + apply story_reset_ok in Hm. destruct Hm as (s4 & s5 & g & g' & _ & _ & _ & ->).
      cbn [w_stories set_stories set_tgens]. rewrite nth_put_other by auto. exact H1.
    + apply story_tick_ok in Hm. destruct Hm as (s4 & s5 & _ & _ & ->).
      cbn [w_stories set_stories set_tgens]. rewrite nth_put_other by auto. exact H1.
Qed.

(** ** Constant timer generators stay so *)
Definition const_kept (t : nat) (c : Z) (w w' : world) : Prop :=
  nth_error (w_tgens w) t = Some (TConst c) -> nth_error (w_tgens w') t = Some (TConst c).

Lemma const_refl t c w : const_kept t c w w.
Proof. intros H; exact H. Qed.
Lemma const_trans t c w1 w2 w3 : const_kept t c w1 w2 -> const_kept t c w2 w3 -> const_kept t c w1 w3.
Proof. unfold const_kept. auto. Qed.

Lemma const_reset_gen s c ids s' g' : reset_timers s (TConst c) ids = Ok (s', g') -> g' = TConst c.
Proof.
  intros H. destruct (reset_spec _ _ _ _ _ H) as (_ & _ & _ & _ & E1 & E2).
  destruct (reset_ids s ids) as [|x l] eqn:E.
  - now apply E1.
  - destruct (E2 ltac:(discriminate)) as (act & out & _ & Hg & _). cbn in Hg. now injection Hg as _ <-.
Qed.

Lemma const_reset t c a ids : keeps (const_kept t c) (story_reset a ids).
Proof.
  intros w Hc. unfold story_reset, bindM, deref, lift.
  destruct (nth_error (w_stories w) a) as [s|] eqn:Es; [|exact Hc].
  destruct (nth_error (w_tgens w) (st_tgen s)) as [g|] eqn:Eg; [|exact Hc].
  destruct (reset_timers s g ids) as [[s' g']|e] eqn:Er; [|exact Hc].
  cbn. rewrite nth_error_set_nth, Hc. destruct (Nat.eqb_spec (st_tgen s) t) as [E|N]; [|reflexivity].
  rewrite E, Hc in Eg. injection Eg as <-. f_equal. eapply const_reset_gen; eauto.
Qed.

Lemma const_same t c w w' : w_tgens w' = w_tgens w -> const_kept t c w w'.
Proof. intros E H. now rewrite E. Qed.

Lemma const_force t c a ids : keeps (const_kept t c) (story_force a ids).
Proof.
  intros w. apply const_same. unfold story_force, bindM, deref.
  destruct (nth_error (w_stories w) a) as [s|]; [|reflexivity].
  destruct (force_act_next s ids). reflexivity.
Qed.
Lemma const_transit t c a ids st : keeps (const_kept t c) (story_transit a ids st).
Proof.
  intros w. apply const_same. unfold story_transit, bindM, deref, lift.
  destruct (nth_error (w_stories w) a) as [s|]; [|reflexivity].
  destruct (transit_to_state s ids st); reflexivity.
Qed.
Lemma const_tick t c a ids : keeps (const_kept t c) (story_tick a ids).
Proof.
  intros w. apply const_same. unfold story_tick, bindM, deref, lift.
  destruct (nth_error (w_stories w) a) as [s|]; [|reflexivity].
  destruct (timer_tick s ids); reflexivity.
Qed.

Lemma chain_const t c ops d : keeps (const_kept t c) (run_chain ops d).
Proof.
  apply (run_chain_keeps (const_kept t c) (fun _ => True) (fun _ => True) (fun _ => True)); auto.
  - apply const_refl.
  - apply const_trans.
  - intros; now apply const_same.
  - intros; now apply const_same.
  - intros; now apply const_same.
  - intros; now apply const_same.
  - intros; now apply const_same.
  - intros; now apply const_same.
  - intros; apply const_force.
  - intros; apply const_reset.
  - intros; apply const_transit.
Qed.

Lemma const_execute t c a : keeps (const_kept t c) (execute a).
Proof.
  pose proof (const_trans t c) as Tr. intros w. unfold execute.
  apply keeps_bind_dep; [apply Tr|apply const_same; unfold deref; destruct (nth_error (w_stories w) a); reflexivity|].
  intros s w1 _. apply keeps_bind_dep; [apply Tr|now apply const_same|]. intros _ w2 _.
  rewrite active_spec. apply keeps_bind_dep; [apply Tr| |].
  - destruct (due_members s) as [|x l]; [apply const_refl|].
    apply keeps_bind_dep; [apply Tr|apply chain_const|]. intros [d' lg] w3 _.
    apply keeps_bind_dep; [apply Tr| |intros; apply const_refl].
    destruct (st_auto s); [apply const_reset|apply const_tick].
  - intros lg w3 _. apply keeps_bind_dep; [apply Tr|apply const_tick|intros; apply const_refl].
Qed.
