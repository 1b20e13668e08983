(** Properties of stories over whole histories. *)
From Verif Require Import Base BaseFacts Rng Utils Relationship RelationshipFacts Frame Gens GensProps Clock Attribute AttributeFacts World Story Ops OpsFacts Fs Circus SpecStory StoryFacts StoryExec.

(** ** Other stories: whatever happens to [b <> a], raising or not *)
Definition at_story (R : story -> story -> Prop) (a : nat) (w w' : world) : Prop :=
  forall s, nth_error (w_stories w) a = Some s -> exists s', nth_error (w_stories w') a = Some s' /\ R s s'.

Section Other.
  Context (R : story -> story -> Prop).
  Hypothesis Rrefl : forall s, R s s.
  Hypothesis Rtrans : forall s1 s2 s3, R s1 s2 -> R s2 s3 -> R s1 s3.

  Lemma at_refl a w : at_story R a w w.
  Proof. intros s H. eauto. Qed.
  Lemma at_trans a w1 w2 w3 : at_story R a w1 w2 -> at_story R a w2 w3 -> at_story R a w1 w3.
  Proof. intros H1 H2 s H. destruct (H1 s H) as (s1 & E1 & R1). destruct (H2 s1 E1) as (s2 & E2 & R2). eauto. Qed.
  Lemma at_bind {A B} a (m : M A) (f : A -> M B) : keeps (at_story R a) m ->
    (forall x, keeps (at_story R a) (f x)) -> keeps (at_story R a) (bindM m f).
  Proof. apply keeps_bind. apply at_trans. Qed.
  Lemma at_put a b s : a <> b -> keeps (at_story R a) (put_story b s).
  Proof.
    intros N w s0 H. cbn. rewrite nth_put_other by auto. eauto.
  Qed.
  Lemma at_lift {A} a (r : result A) : keeps (at_story R a) (lift r).
  Proof. intros w. apply at_refl. Qed.
  Lemma at_deref {A} a (h : world -> list A) i : keeps (at_story R a) (deref h i).
  Proof. intros w. unfold deref. destruct (nth_error (h w) i); apply at_refl. Qed.
  Lemma at_tgen a i g : keeps (at_story R a) (put_tgen i g).
  Proof. intros w s H. cbn. eauto. Qed.

  Lemma at_tick a b ids : a <> b -> keeps (at_story R a) (story_tick b ids).
  Proof.
    intros N. apply at_bind; [apply at_deref|intros s]. apply at_bind; [apply at_lift|intros s'].
    now apply at_put.
  Qed.
  Lemma at_reset a b ids : a <> b -> keeps (at_story R a) (story_reset b ids).
  Proof.
    intros N. apply at_bind; [apply at_deref|intros s]. apply at_bind; [apply at_deref|intros g].
    apply at_bind; [apply at_lift|intros [s' g']]. apply at_bind; [apply at_tgen|intros _]. now apply at_put.
  Qed.
  Lemma at_transit a b ids st : a <> b -> keeps (at_story R a) (story_transit b ids st).
  Proof.
    intros N. apply at_bind; [apply at_deref|intros s]. apply at_bind; [apply at_lift|intros s'].
    now apply at_put.
  Qed.
  Lemma at_force a b ids : a <> b -> keeps (at_story R a) (story_force b ids).
  Proof.
    intros N. apply at_bind; [apply at_deref|intros s]. destruct (force_act_next s ids) as [res s'].
    apply at_bind; [now apply at_put|intros _]. apply at_lift.
  Qed.

  Lemma at_execute a b (P : world -> Prop) : a <> b ->
    (forall w s w0, P w -> nth_error (w_stories w) b = Some s ->
       at_story R a w0 (snd (run_chain (st_ops s) (init_story_data (st_field s) (due_members s)) w0))) ->
    forall w, P w -> at_story R a w (snd (execute b w)).
  Proof.
    intros N Hc w Pw. unfold execute. apply keeps_bind_dep; [apply at_trans|apply at_deref|].
    intros s w1 E. apply deref_ok in E. destruct E as [E ->].
    apply keeps_bind_dep; [apply at_trans|now apply at_put|]. intros _ w2 _.
    rewrite active_spec. apply keeps_bind_dep; [apply at_trans| |].
    - destruct (due_members s) as [|x l] eqn:Ed; [apply at_refl|]. rewrite <- Ed.
      apply keeps_bind_dep; [apply at_trans|now apply (Hc w)|].
      intros [d' lg] w3 _. apply keeps_bind_dep; [apply at_trans| |intros; apply at_refl].
      destruct (st_auto s); [now apply at_reset|now apply at_tick].
    - intros lg w3 _. apply keeps_bind_dep; [apply at_trans|now apply at_tick|intros; apply at_refl].
  Qed.
End Other.

(** ** Everything a happening may do to story [a] *)
Lemma happen_exec a w : happen (HExec a) w = (match execute a w with (Ok _, w') => (Ok tt, w') | (Err e, w') => (Err e, w') end).
Proof. reflexivity. Qed.
Lemma snd_exec a w : snd (happen (HExec a) w) = snd (execute a w).
Proof. cbn. destruct (execute a w) as [[l|e] w']; reflexivity. Qed.

Lemma stories_rel_at R a w w' : stories_rel R w w' -> at_story (R a) a w w'.
Proof. intros [_ H] s E. auto. Qed.

Lemma increment_stories w : w_stories (increment_clock w) = w_stories w.
Proof. unfold increment_clock. destruct (clock_increment _). reflexivity. Qed.

(** *** Static part: never changes, even when something raises *)
Lemma own_static a w : stories_rel (fun _ => static) w (snd (execute a w)).
Proof.
  assert (St : forall b s1 s2 s3, (fun _ : nat => static) b s1 s2 -> (fun _ : nat => static) b s2 s3 -> (fun _ : nat => static) b s1 s3)
    by (intros; eapply static_trans; eauto).
  pose proof (sr_trans (fun _ => static) St) as Tr.
  pose proof (sr_refl (fun _ => static) (fun _ => static_refl)) as Rf.
  assert (Dr : forall A (h : world -> list A) i, keeps (stories_rel (fun _ => static)) (deref h i)).
  { intros A h i w0. unfold deref. destruct (nth_error (h w0) i); apply Rf. }
  assert (Li : forall A (r : result A), keeps (stories_rel (fun _ => static)) (lift r)).
  { intros A r w0. apply Rf. }
  assert (Tk : forall ids, keeps (stories_rel (fun _ => static)) (story_tick a ids)).
  { intros ids w0. unfold story_tick. apply keeps_bind_dep; [apply Tr|apply Dr|].
    intros s w1 E. apply deref_ok in E. destruct E as [E ->].
    apply keeps_bind_dep; [apply Tr|apply Li|]. intros s' w1 E1. apply lift_ok in E1. destruct E1 as [E1 ->].
    eapply (sr_put (fun _ => static)); eauto using static_refl. now destruct (tick_spec _ _ _ E1). }
  assert (Rs : forall ids, keeps (stories_rel (fun _ => static)) (story_reset a ids)).
  { intros ids. apply (sr_reset (fun _ => static) (fun _ => True)); auto using static_refl.
    intros ? ? ? ? ? ? _ E. now destruct (reset_spec _ _ _ _ _ E). }
  unfold execute. apply keeps_bind_dep; [apply Tr|apply Dr|].
  intros s w1 E. apply deref_ok in E. destruct E as [E ->].
  apply keeps_bind_dep; [apply Tr| |].
  { eapply (sr_put (fun _ => static)); eauto using static_refl. apply static_forced. }
  intros _ w2 _. rewrite active_spec. apply keeps_bind_dep; [apply Tr| |].
  - destruct (due_members s) as [|x l] eqn:Ed; [apply Rf|]. rewrite <- Ed.
    apply keeps_bind_dep; [apply Tr|apply chain_static|].
    intros [d' lg] w3 _. apply keeps_bind_dep; [apply Tr| |intros; apply Rf].
    destruct (st_auto s); [apply Rs|apply Tk].
  - intros lg w3 _. apply keeps_bind_dep; [apply Tr|apply Tk|intros; apply Rf].
Qed.

Lemma happen_static h w : stories_rel (fun _ => static) w (snd (happen h w)).
Proof.
  assert (St : forall b s1 s2 s3, (fun _ : nat => static) b s1 s2 -> (fun _ : nat => static) b s2 s3 -> (fun _ : nat => static) b s1 s3)
    by (intros; eapply static_trans; eauto).
  destruct h as [a| |a ids|a ids|a ids states|a ids].
  - rewrite snd_exec. apply own_static.
  - apply sr_same; [intros; apply static_refl|]. apply increment_stories.
  - apply (sr_force (fun _ => static) (fun _ => True)); auto using static_refl.
    intros b s ids' _. destruct (force_act_next s ids') as [res s'] eqn:E. now destruct (force_spec _ _ _ _ E).
  - apply (sr_reset (fun _ => static) (fun _ => True)); auto using static_refl.
    intros ? ? ? ? ? ? _ E. now destruct (reset_spec _ _ _ _ _ E).
  - apply (sr_transit (fun _ => static) (fun _ => True)); auto using static_refl.
    intros ? ? ? ? ? _ E. now destruct (transit_spec _ _ _ _ E) as (_ & _ & S & _).
  - cbn [happen]. unfold story_tick. cbn [snd].
    unfold bindM, deref, lift. destruct (nth_error (w_stories w) a) as [s|] eqn:E; [|apply sr_refl; intros; apply static_refl].
    destruct (timer_tick s ids) as [s'|e] eqn:Et; [|apply sr_refl; intros; apply static_refl].
    cbn. eapply (sr_put (fun _ => static)); eauto using static_refl. now destruct (tick_spec _ _ _ Et).
Qed.

Lemma after_static l w : stories_rel (fun _ => static) w (after w l).
Proof.
  revert w. induction l as [|h l IH]; intros w; cbn [after].
  - apply sr_refl. intros; apply static_refl.
  - eapply (sr_trans (fun _ => static)); [|apply happen_static|apply IH].
    intros; eapply static_trans; eauto.
Qed.

(** *** Forced members *)
Lemma happen_forced a i h w : h <> HExec a -> at_story (forced_same a i a) a w (snd (happen h w)).
Proof.
  intros Nh. pose proof (forced_same_refl a i a) as Rf. pose proof (forced_same_trans a i a) as Tr.
  destruct h as [b| |b ids|b ids|b ids states|b ids].
  - rewrite snd_exec. assert (N : a <> b) by congruence.
    apply (at_execute (forced_same a i a) Rf Tr a b (fun _ => True)); auto.
    intros w0 s w1 _ _. apply (stories_rel_at (forced_same a i)), chain_forced.
  - intros s E. exists s. split; [|apply Rf]. cbn [happen snd]. now rewrite increment_stories.
  - apply (stories_rel_at (forced_same a i)). apply (sr_force _ (fun _ => True)); auto using forced_same_refl.
    intros c s ids' _. apply force_forced.
  - apply (stories_rel_at (forced_same a i)).
    apply (sr_reset _ (fun _ => True)); auto using forced_same_refl.
    + apply forced_same_trans.
    + intros ? ? ? ? ? ? _ E. eapply reset_forced; eauto.
  - apply (stories_rel_at (forced_same a i)).
    apply (sr_transit _ (fun _ => True)); auto using forced_same_refl; [apply forced_same_trans|].
    intros ? ? ? ? ? _ E. eapply transit_forced; eauto.
  - destruct (Nat.eq_dec a b) as [E|N]; [subst b|apply at_tick; auto].
    cbn [happen]. unfold story_tick, bindM, deref, lift. cbn.
    destruct (nth_error (w_stories w) a) as [s|] eqn:E; [|apply at_refl; auto].
    destruct (timer_tick s ids) as [s'|e] eqn:Et; [|apply at_refl; auto].
    cbn. intros s0 E0. assert (s0 = s) by congruence. subst s0. exists s'.
    split; [cbn; eapply nth_put_same; eauto|eapply tick_forced; eauto].
Qed.

Lemma after_forced a i l w s : executions a l = 0 -> nth_error (w_stories w) a = Some s ->
  In i (st_forced s) -> remaining_of s i = Some (Some 0%Z) ->
  exists s', nth_error (w_stories (after w l)) a = Some s' /\ static s s' /\
    In i (st_forced s') /\ remaining_of s' i = Some (Some 0%Z).
Proof.
  revert w s. induction l as [|h l IH]; intros w s Hx Hs Hf Hz; cbn [after].
  { exists s. auto using static_refl. }
  assert (Nh : h <> HExec a).
  { intros ->. cbn in Hx. rewrite Nat.eqb_refl in Hx. discriminate. }
  destruct (happen_forced a i h w Nh s Hs) as (s1 & H1 & S1 & F1).
  destruct (F1 eq_refl Hf Hz) as [F2 Z2].
  destruct (IH (snd (happen h w)) s1) as (s' & H2 & S2 & R2); auto.
  - destruct h; cbn in Hx; auto; lia.
  - exists s'. split; [exact H2|]. split; [eapply static_trans; eauto|exact R2].
Qed.

(** *** Counters when nobody reschedules [a] *)
Lemma happen_timed a h w r w' s : happen h w = (r, w') -> h <> HExec a ->
  nth_error (w_stories w) a = Some s ->
  (forall b sb o, nth_error (w_stories w) b = Some sb -> In o (st_ops sb) -> reschedules a o = false) ->
  match h with HForce b _ | HReset b _ | HTick b _ => b <> a | _ => True end ->
  exists s', nth_error (w_stories w') a = Some s' /\ timed_same a a s s'.
Proof.
  intros Hh Nh Hs Hops Ho. assert (E : w' = snd (happen h w)) by now rewrite Hh. subst w'. clear Hh.
  revert s Hs. fold (at_story (timed_same a a) a w (snd (happen h w))).
  pose proof (timed_same_refl a a) as Rf. pose proof (timed_same_trans a a) as Tr.
  destruct h as [b| |b ids|b ids|b ids states|b ids].
  - rewrite snd_exec. assert (N : a <> b) by congruence.
    apply (at_execute (timed_same a a) Rf Tr a b (fun w0 => w0 = w)); auto.
    intros w0 s w1 -> Hb. apply (stories_rel_at (timed_same a)), chain_timed. eauto.
  - intros s E. exists s. split; [|apply Rf]. cbn [happen snd]. now rewrite increment_stories.
  - apply at_force; auto.
  - apply at_reset; auto.
  - apply (stories_rel_at (timed_same a)).
    apply (sr_transit _ (fun _ => True)); auto using timed_same_refl; [apply timed_same_trans|].
    intros c s ids' st s' _ E. destruct (transit_spec _ _ _ _ E) as (_ & _ & S & F & _).
    split; [exact S|]. intros _. split; [exact F|]. intros i. eapply transit_remaining; eauto.
  - apply at_tick; auto.
Qed.

Lemma history_inv w h l w' : history w (h :: l) w' ->
  exists w1, happen h w = (Ok tt, w1) /\ snd (happen h w) = w1 /\ history w1 l w'.
Proof. inversion 1; subst. exists w1. split; [assumption|]. rewrite H3. auto. Qed.

Lemma history_after w l w' : history w l w' -> w' = after w l.
Proof. induction 1; cbn; [reflexivity|]. now rewrite H. Qed.

Lemma static_ops w w1 a : stories_rel (fun _ => static) w w1 ->
  (forall b sb o, nth_error (w_stories w) b = Some sb -> In o (st_ops sb) -> reschedules a o = false) ->
  (forall b sb o, nth_error (w_stories w1) b = Some sb -> In o (st_ops sb) -> reschedules a o = false).
Proof.
  intros [L S] H b sb o Hb Ho.
  destruct (nth_error (w_stories w) b) as [s|] eqn:E.
  - destruct (S b s E) as (s' & E' & St). assert (s' = sb) by congruence. subst.
    apply (H b s o E). destruct St as (_&_&_&_&_&_&_&Eo&_). congruence.
  - apply nth_error_None in E. assert (nth_error (w_stories w1) b <> None) by congruence.
    apply nth_error_Some in H0. lia.
Qed.

(** One happening of a history in which nobody reschedules [a]. *)
Lemma history_step a w h l w' s : history w (h :: l) w' -> nobody_reschedules w a (h :: l) ->
  nth_error (w_stories w) a = Some s ->
  exists w1 s1, happen h w = (Ok tt, w1) /\ history w1 l w' /\ nobody_reschedules w1 a l /\
    nth_error (w_stories w1) a = Some s1 /\ static s s1 /\
    (h <> HExec a -> forall i, remaining_of s1 i = remaining_of s i).
Proof.
  intros Hh [Hops Huser] Hs. apply history_inv in Hh. destruct Hh as (w1 & H1 & E1 & H2).
  pose proof (happen_static h w) as St. rewrite E1 in St.
  destruct (proj2 St a s Hs) as (s1 & Hs1 & S1).
  exists w1, s1. split; [exact H1|]. split; [exact H2|]. split.
  { split; [eapply static_ops; eauto|]. intros h' Hh'. apply Huser. now right. }
  split; [exact Hs1|]. split; [exact S1|].
  intros Nh. destruct (happen_timed a h w _ w1 s H1 Nh Hs Hops) as (s' & E' & _ & T).
  - apply (Huser h). now left.
  - assert (s' = s1) by congruence. subst. now apply T.
Qed.

Lemma exec_history a w w1 s : happen (HExec a) w = (Ok tt, w1) -> nth_error (w_stories w) a = Some s ->
  exists l, execute a w = (Ok l, w1).
Proof. cbn. destruct (execute a w) as [[l|e] w']; intros [= <-]; eauto. Qed.

(** Induction principle on such histories, in terms of counters. *)
Lemma history_counter a w l w' s i n : history w l w' -> nobody_reschedules w a l ->
  nth_error (w_stories w) a = Some s -> NoDup (st_ids s) ->
  remaining_of s i = Some (Some (Z.of_nat n)) -> executions a l <= n ->
  exists s', nth_error (w_stories w') a = Some s' /\ static s s' /\
    remaining_of s' i = Some (Some (Z.of_nat (n - executions a l))).
Proof.
  revert w s n. induction l as [|h l IH]; intros w s n Hh Hn Hs Nd Hr Hx.
  { inversion Hh; subst. exists s. rewrite Nat.sub_0_r. auto using static_refl. }
  destruct (history_step _ _ _ _ _ _ Hh Hn Hs) as (w1 & s1 & H1 & H2 & Hn1 & Hs1 & S1 & T1).
  assert (Nd1 : NoDup (st_ids s1)) by (destruct S1 as (_&_&_&_&_&_&_&_&Ei); now rewrite Ei).
  assert (Hcase : h = HExec a \/ h <> HExec a).
  { destruct h as [b| | | | |]; try (right; discriminate). destruct (Nat.eq_dec a b); [left|right]; congruence. }
  destruct Hcase as [->|Nh].
  - cbn [executions] in *. rewrite Nat.eqb_refl in *.
    destruct (exec_history _ _ _ _ H1 Hs) as (lg & Hx').
    destruct (exec_spec _ _ _ _ _ Hx' Hs Nd) as (s1' & E1 & _ & _ & D1 & _).
    { intros o Ho. eapply (proj1 Hn); eauto. }
    assert (s1' = s1) by congruence. subst s1'.
    destruct n as [|n]; [lia|].
    destruct (IH w1 s1 n) as (s' & E' & S' & R'); auto; [| |].
    + rewrite (D1 i _ Hr); [|intros [=]]. cbn [ticked]. replace (0 <=? Z.of_nat (S n))%Z with true by (symmetry; apply Z.leb_le; lia).
      repeat f_equal. lia.
    + lia.
    + exists s'. split; [exact E'|]. split; [eapply static_trans; eauto|]. rewrite R'. reflexivity.
  - assert (Ex : executions a (h :: l) = executions a l).
    { destruct h as [b| | | | |]; try reflexivity. cbn. destruct (Nat.eqb_spec a b); [congruence|reflexivity]. }
    rewrite Ex in *.
    destruct (IH w1 s1 n) as (s' & E' & S' & R'); auto; [now rewrite T1|].
    exists s'. split; [exact E'|]. split; [eapply static_trans; eauto|exact R'].
Qed.

Lemma history_inactive a w l w' s i r : history w l w' -> nobody_reschedules w a l ->
  nth_error (w_stories w) a = Some s -> NoDup (st_ids s) ->
  remaining_of s i = Some r -> (forall n, r = Some n -> (n < 0)%Z) ->
  exists s', nth_error (w_stories w') a = Some s' /\ static s s' /\ remaining_of s' i = Some r.
Proof.
  revert w s. induction l as [|h l IH]; intros w s Hh Hn Hs Nd Hr Hneg.
  { inversion Hh; subst. exists s. auto using static_refl. }
  destruct (history_step _ _ _ _ _ _ Hh Hn Hs) as (w1 & s1 & H1 & H2 & Hn1 & Hs1 & S1 & T1).
  assert (Nd1 : NoDup (st_ids s1)) by (destruct S1 as (_&_&_&_&_&_&_&_&Ei); now rewrite Ei).
  assert (Hr1 : remaining_of s1 i = Some r).
  { assert (Hcase : h = HExec a \/ h <> HExec a).
    { destruct h as [b| | | | |]; try (right; discriminate). destruct (Nat.eq_dec a b); [left|right]; congruence. }
    destruct Hcase as [->|Nh]; [|now rewrite T1].
    destruct (exec_history _ _ _ _ H1 Hs) as (lg & Hx').
    destruct (exec_spec _ _ _ _ _ Hx' Hs Nd) as (s1' & E1 & _ & _ & D1 & _).
    { intros o Ho. eapply (proj1 Hn); eauto. }
    assert (s1' = s1) by congruence. subst s1'.
    rewrite (D1 i _ Hr); [|intros ->; specialize (Hneg _ eq_refl); lia].
    destruct r as [z|]; [|reflexivity]. cbn. specialize (Hneg _ eq_refl).
    destruct (Z.leb_spec 0 z); [lia|reflexivity]. }
  destruct (IH w1 s1) as (s' & E' & S' & R'); auto.
  exists s'. split; [exact E'|]. split; [eapply static_trans; eauto|exact R'].
Qed.

Lemma notify_const t c ls gens : nth_error gens t = Some (TConst c) -> nth_error (notify gens ls) t = Some (TConst c).
Proof.
  revert gens. induction ls as [|i ls IH]; intros gens H; cbn [notify]; [exact H|].
  apply IH. destruct (nth_error gens i) as [g|] eqn:E; [|exact H].
  rewrite nth_error_set_nth, H. destruct (Nat.eqb_spec i t) as [->|N]; [|reflexivity].
  rewrite H in E. injection E as <-. reflexivity.
Qed.

Lemma happen_const t c h w : const_kept t c w (snd (happen h w)).
Proof.
  destruct h as [b| |b ids|b ids|b ids states|b ids].
  - rewrite snd_exec. apply const_execute.
  - intros H. cbn [happen snd]. unfold increment_clock, clock_increment. cbn. now apply notify_const.
  - apply const_force.
  - apply const_reset.
  - apply const_transit.
  - apply const_tick.
Qed.

(** ** When members act *)
Lemma acts_now_iff w a i s : nth_error (w_stories w) a = Some s -> NoDup (st_ids s) ->
  (acts_now w a i <-> remaining_of s i = Some (Some 0%Z)).
Proof.
  intros Hs Nd. rewrite <- due_iff by exact Nd. unfold acts_now. split.
  - intros (s0 & E & H). congruence.
  - eauto.
Qed.

Lemma hexec_cases a h : h = HExec a \/ h <> HExec a.
Proof.
  destruct h as [b| | | | |]; try (right; discriminate). destruct (Nat.eq_dec a b); [left|right]; congruence.
Qed.

Lemma executions_skip a h l : h <> HExec a -> executions a (h :: l) = executions a l.
Proof.
  destruct h as [b| | | | |]; intros N; try reflexivity. cbn. destruct (Nat.eqb_spec a b); [congruence|reflexivity].
Qed.
Lemma executions_exec a l : executions a (HExec a :: l) = S (executions a l).
Proof. cbn. now rewrite Nat.eqb_refl. Qed.

Lemma acts_at_skip a i w h l k : h <> HExec a ->
  (acts_at a i w (h :: l) k <-> acts_at a i (snd (happen h w)) l k).
Proof.
  intros N. split; [|now apply acts_skip]. inversion 1; subst; try congruence.
Qed.
Lemma acts_at_0 a i w l : acts_at a i w (HExec a :: l) 0 <-> acts_now w a i.
Proof. split; [inversion 1; subst; [assumption|congruence]|apply acts_first]. Qed.
Lemma acts_at_S a i w l k : acts_at a i w (HExec a :: l) (S k) <-> acts_at a i (snd (happen (HExec a) w)) l k.
Proof. split; [inversion 1; subst; [assumption|congruence]|apply acts_later]. Qed.

Lemma acts_at_bound a i w l k : acts_at a i w l k -> k < executions a l.
Proof.
  induction 1 as [w l H|w l k H IH|w h l k N H IH].
  - rewrite executions_exec. lia.
  - rewrite executions_exec. lia.
  - rewrite executions_skip by assumption. exact IH.
Qed.

(** the step of an own execution, on the counter of [i] *)
Lemma own_step a w w1 s s1 i r : happen (HExec a) w = (Ok tt, w1) ->
  (forall b sb o, nth_error (w_stories w) b = Some sb -> In o (st_ops sb) -> reschedules a o = false) ->
  nth_error (w_stories w) a = Some s -> nth_error (w_stories w1) a = Some s1 -> NoDup (st_ids s) ->
  remaining_of s i = Some r ->
  (r <> Some 0%Z -> remaining_of s1 i = Some (ticked r)) /\
  (r = Some 0%Z -> st_auto s = false -> remaining_of s1 i = Some (Some (-1)%Z)).
Proof.
  intros H1 Hops Hs Hs1 Nd Hr.
  destruct (exec_history _ _ _ _ H1 Hs) as (lg & Hx').
  destruct (exec_spec _ _ _ _ _ Hx' Hs Nd) as (s1' & E1 & _ & _ & D1 & D2 & _).
  { intros o Ho. eapply Hops; eauto. }
  assert (s1' = s1) by congruence. subst s1'. split.
  - intros N. now apply D1.
  - intros -> Ea. now apply D2.
Qed.

Lemma acts_inactive a w l w' s i r k : history w l w' -> nobody_reschedules w a l ->
  nth_error (w_stories w) a = Some s -> NoDup (st_ids s) ->
  remaining_of s i = Some r -> (forall n, r = Some n -> (n < 0)%Z) -> ~ acts_at a i w l k.
Proof.
  revert w s k. induction l as [|h l IH]; intros w s k Hh Hn Hs Nd Hr Hneg Hk.
  { inversion Hk. }
  destruct (history_step _ _ _ _ _ _ Hh Hn Hs) as (w1 & s1 & H1 & H2 & Hn1 & Hs1 & S1 & T1).
  assert (Nd1 : NoDup (st_ids s1)) by (destruct S1 as (_&_&_&_&_&_&_&_&Ei); now rewrite Ei).
  destruct (hexec_cases a h) as [->|Nh].
  - destruct (own_step a w w1 s s1 i r H1 (proj1 Hn) Hs Hs1 Nd Hr) as [D _].
    assert (N0 : r <> Some 0%Z) by (intros ->; specialize (Hneg _ eq_refl); lia).
    destruct k as [|k].
    + apply acts_at_0, (acts_now_iff _ _ _ _ Hs Nd) in Hk. congruence.
    + apply acts_at_S in Hk. rewrite H1 in Hk. cbn in Hk. eapply IH in Hk; eauto.
      rewrite (D N0). destruct r as [z|]; [|reflexivity]. cbn. specialize (Hneg _ eq_refl).
      destruct (Z.leb_spec 0 z); [lia|reflexivity].
  - apply acts_at_skip in Hk; [|exact Nh]. rewrite H1 in Hk. cbn in Hk. eapply IH in Hk; eauto.
    now rewrite T1.
Qed.

Lemma acts_on_time a w l w' s i n k : history w l w' -> nobody_reschedules w a l ->
  nth_error (w_stories w) a = Some s -> NoDup (st_ids s) ->
  remaining_of s i = Some (Some (Z.of_nat n)) -> k <= n ->
  (acts_at a i w l k <-> k = n /\ n < executions a l).
Proof.
  revert w s n k. induction l as [|h l IH]; intros w s n k Hh Hn Hs Nd Hr Hk.
  { cbn. split; [inversion 1|lia]. }
  destruct (history_step _ _ _ _ _ _ Hh Hn Hs) as (w1 & s1 & H1 & H2 & Hn1 & Hs1 & S1 & T1).
  assert (Nd1 : NoDup (st_ids s1)) by (destruct S1 as (_&_&_&_&_&_&_&_&Ei); now rewrite Ei).
  destruct (hexec_cases a h) as [->|Nh].
  - destruct (own_step a w w1 s s1 i _ H1 (proj1 Hn) Hs Hs1 Nd Hr) as [D _].
    rewrite executions_exec. destruct k as [|k].
    + rewrite acts_at_0, (acts_now_iff _ _ _ _ Hs Nd), Hr. destruct n as [|n]; cbn [Z.of_nat].
      * split; [lia|auto].
      * split; [intros [=]|lia].
    + destruct n as [|n]; [lia|]. rewrite acts_at_S, H1. cbn [snd].
      rewrite (IH w1 s1 n k); auto; [lia| |lia].
      rewrite D by discriminate. cbn [ticked].
      replace (0 <=? Z.of_nat (S n))%Z with true by (symmetry; apply Z.leb_le; lia). repeat f_equal. lia.
  - rewrite acts_at_skip, H1, executions_skip by exact Nh. cbn [snd]. apply (IH w1 s1); auto. now rewrite T1.
Qed.

Lemma acts_once a w l w' s i n k : history w l w' -> nobody_reschedules w a l ->
  nth_error (w_stories w) a = Some s -> NoDup (st_ids s) -> st_auto s = false ->
  remaining_of s i = Some (Some (Z.of_nat n)) -> acts_at a i w l k ->
  k = n /\ exists s', nth_error (w_stories w') a = Some s' /\ remaining_of s' i = Some (Some (-1)%Z).
Proof.
  revert w s n k. induction l as [|h l IH]; intros w s n k Hh Hn Hs Nd Ha Hr Hk.
  { inversion Hk. }
  destruct (history_step _ _ _ _ _ _ Hh Hn Hs) as (w1 & s1 & H1 & H2 & Hn1 & Hs1 & S1 & T1).
  assert (Nd1 : NoDup (st_ids s1)) by (destruct S1 as (_&_&_&_&_&_&_&_&Ei); now rewrite Ei).
  assert (Ha1 : st_auto s1 = false) by (destruct S1 as (_&_&_&_&Ea&_); congruence).
  destruct (hexec_cases a h) as [->|Nh].
  - destruct (own_step a w w1 s s1 i _ H1 (proj1 Hn) Hs Hs1 Nd Hr) as [D D0].
    destruct n as [|n].
    + specialize (D0 eq_refl Ha). destruct k as [|k].
      * split; [reflexivity|].
        assert (Neg : forall n, Some (-1)%Z = Some n -> (n < 0)%Z) by (intros ? [= <-]; lia).
        destruct (history_inactive _ _ _ _ _ _ _ H2 Hn1 Hs1 Nd1 D0 Neg) as (s' & E & _ & R). eauto.
      * apply acts_at_S in Hk. rewrite H1 in Hk. exfalso.
        eapply acts_inactive in Hk; eauto. intros ? [= <-]. lia.
    + destruct k as [|k].
      * apply acts_at_0, (acts_now_iff _ _ _ _ Hs Nd) in Hk. rewrite Hr in Hk. discriminate.
      * apply acts_at_S in Hk. rewrite H1 in Hk. cbn in Hk.
        destruct (IH w1 s1 n k) as [Ek Es]; auto.
        rewrite D by discriminate. cbn [ticked].
        replace (0 <=? Z.of_nat (S n))%Z with true by (symmetry; apply Z.leb_le; lia). repeat f_equal. lia.
  - apply acts_at_skip in Hk; [|exact Nh]. rewrite H1 in Hk. cbn in Hk.
    apply (IH w1 s1); auto. now rewrite T1.
Qed.

(** ** Constant timers *)
Lemma reset_const s c due s' g' i : reset_timers s (TConst c) (Some due) = Ok (s', g') ->
  st_forced s = [] -> NoDup due -> In i due ->
  (forall states st ab, In (i, states) (st_params s) -> In (st, ab) states -> ~ (fst ab == 0)%Q) ->
  remaining_of s' i = Some (Some c).
Proof.
  intros H Hf Nd Hi Hact. destruct (reset_spec _ _ _ _ _ H) as (_ & _ & _ & _ & _ & E).
  unfold reset_ids in E. rewrite Hf, index_difference_nil in E.
  destruct (E (in_nonempty _ _ Hi)) as (act & out & Ha & Hg & Ho & _ & V).
  pose proof (get_param_keys _ _ _ _ Ha) as Ka.
  assert (Hin : In i (map fst act)) by (rewrite Ka; exact Hi).
  apply in_map_iff in Hin. destruct Hin as ([j q] & Ej & Hin). cbn in Ej. subst j.
  destruct (V Nd i q Hin) as (t & Ht & R). rewrite R.
  destruct (get_param_values _ _ _ _ Ha i q Hin) as (st & _ & D).
  unfold declared in D. destruct (dget i (st_params s)) as [states|] eqn:Es; [|discriminate].
  destruct (dget st states) as [ab|] eqn:Eb; [|discriminate]. cbn in D. injection D as <-.
  apply dget_In in Es, Eb. specialize (Hact _ _ _ Es Eb).
  destruct (Qeq_bool (fst ab) 0) eqn:Eq; [apply Qeq_bool_eq in Eq; contradiction|].
  f_equal. cbn in Hg. injection Hg as <- _. apply in_map_iff in Ht.
  destruct Ht as (o & Eo & _). now injection Eo as _ <-.
Qed.

Lemma NoDup_due s : NoDup (st_ids s) -> NoDup (due_members s).
Proof. intros H. apply NoDup_map_filter, H. Qed.

Lemma acts_const a w l w' s i c n k : history w l w' -> nobody_reschedules w a l ->
  nth_error (w_stories w) a = Some s -> NoDup (st_ids s) -> st_auto s = true ->
  nth_error (w_tgens w) (st_tgen s) = Some (TConst (Z.of_nat c)) ->
  (forall states st ab, In (i, states) (st_params s) -> In (st, ab) states -> ~ (fst ab == 0)%Q) ->
  remaining_of s i = Some (Some (Z.of_nat n)) -> n <= c ->
  (acts_at a i w l k <-> k < executions a l /\ exists m, k = n + m * (c + 1)).
Proof.
  revert w s n k. induction l as [|h l IH]; intros w s n k Hh Hn Hs Nd Ha Hg Hact Hr Hnc.
  { cbn. split; [inversion 1|lia]. }
  destruct (history_step _ _ _ _ _ _ Hh Hn Hs) as (w1 & s1 & H1 & H2 & Hn1 & Hs1 & S1 & T1).
  pose proof S1 as (_&_&_&Eg&Ea&_&Ep&_&Ei).
  assert (Nd1 : NoDup (st_ids s1)) by now rewrite Ei.
  assert (Ha1 : st_auto s1 = true) by congruence.
  assert (Hg1 : nth_error (w_tgens w1) (st_tgen s1) = Some (TConst (Z.of_nat c))).
  { rewrite Eg. pose proof (happen_const (st_tgen s) (Z.of_nat c) h w Hg) as Hc. now rewrite H1 in Hc. }
  assert (Hact1 : forall states st ab, In (i, states) (st_params s1) -> In (st, ab) states -> ~ (fst ab == 0)%Q)
    by now rewrite Ep.
  destruct (hexec_cases a h) as [->|Nh].
  - destruct (own_step a w w1 s s1 i _ H1 (proj1 Hn) Hs Hs1 Nd Hr) as [D _].
    rewrite executions_exec.
    destruct n as [|n].
    + assert (Hc : remaining_of s1 i = Some (Some (Z.of_nat c))).
      { destruct (exec_history _ _ _ _ H1 Hs) as (lg & Hx').
        destruct (exec_spec _ _ _ _ _ Hx' Hs Nd) as (s1' & E1 & _ & _ & _ & _ & R).
        { intros o Ho. eapply (proj1 Hn); eauto. }
        assert (s1' = s1) by congruence. subst s1'.
        assert (Hdue : In i (due_members s)) by now apply due_iff.
        destruct (R (in_nonempty _ _ Hdue) Ha) as (s2 & s3 & g & g' & St & F & _ & Hres & Hrem & d1 & w2 & Hch & Hgw & _).
        pose proof (chain_const (st_tgen s) (Z.of_nat c) (st_ops s) (init_story_data (st_field s) (due_members s)) (unforced a s w) Hg) as Hk.
        rewrite Hch in Hk. cbn [snd] in Hk. rewrite Hk in Hgw. injection Hgw as <-.
        rewrite (Hrem i Hr). eapply reset_const; eauto; [now apply NoDup_due|].
        destruct St as (_&_&_&_&_&_&Ep2&_). now rewrite Ep2. }
      destruct k as [|k].
      * rewrite acts_at_0, (acts_now_iff _ _ _ _ Hs Nd), Hr. split; [|auto]. intros _. split; [lia|]. exists 0. lia.
      * rewrite acts_at_S, H1. cbn [snd]. rewrite (IH w1 s1 c k); auto.
        split; intros [L (m & E)]; (split; [lia|]).
        -- exists (S m). lia.
        -- destruct m as [|m]; [lia|]. exists m. lia.
    + destruct k as [|k].
      * rewrite acts_at_0, (acts_now_iff _ _ _ _ Hs Nd), Hr. split; [intros [=]|]. intros [_ (m & E)]. lia.
      * rewrite acts_at_S, H1. cbn [snd]. rewrite (IH w1 s1 n k); auto; [| |lia].
        -- split; intros [L (m & E)]; (split; [lia|]); exists m; lia.
        -- rewrite D by discriminate. cbn [ticked].
           replace (0 <=? Z.of_nat (S n))%Z with true by (symmetry; apply Z.leb_le; lia). repeat f_equal. lia.
  - rewrite acts_at_skip, H1, executions_skip by exact Nh. cbn [snd]. apply (IH w1 s1); auto. now rewrite T1.
Qed.
