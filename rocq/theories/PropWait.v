(** C110: how long members wait. *)
From Verif Require Import Base BaseFacts Rng Utils Relationship Frame Gens Clock SpecClock Attribute World Story Ops Fs Circus
  SpecStory SpecWorld SpecWait StoryFacts StoryExec StoryProps StoryNew StoryGap Samples StorySamples PropStory.
From Coq Require Import Permutation Qround.

(** C110.  A member of an auto-reset story with a cyclic timer and activities at least [lo] acts
    in every window of [longest_wait] executions, wherever it starts, when nobody reschedules
    the story ... *)
Theorem C110_bounded_wait w l1 w1 l2 w2 a i y p start cstep k lo z :
  history w l1 w1 -> history w1 l2 w2 -> distinct_members w -> nobody_reschedules w a (l1 ++ l2) -> auto_reset w a true ->
  timer_generator w a (TCyclic y) -> live p start cstep k y -> activity_at_least w a i lo -> (0 < lo)%Q ->
  counter w a i (Some z) -> (0 <= z < longest_wait y lo)%Z ->
  (longest_wait y lo <= Z.of_nat (executions a l2))%Z ->
  exists n, (Z.of_nat n < longest_wait y lo)%Z /\ acts_at a i w1 l2 n.
Proof. exact (bounded_wait w l1 w1 l2 w2 a i y p start cstep k lo z). Qed.
Print Assumptions C110_bounded_wait.

(** ... and a new story gives all its members such a counter. *)
Theorem C110_from_the_start order name pop f default states t w a w' y p start cstep k i lo po :
  create_story order name pop f default states t true w = (Ok a, w') -> (forall l, Permutation (order l) l) ->
  nth_error (w_pops w) pop = Some po -> NoDup (p_ids po) -> In i (p_ids po) ->
  nth_error (w_tgens w) t = Some (TCyclic y) -> live p start cstep k y -> activity_at_least w' a i lo -> (0 < lo)%Q ->
  exists z y', counter w' a i (Some z) /\ (0 <= z < longest_wait y lo)%Z /\
    timer_generator w' a (TCyclic y') /\ live p start cstep k y' /\ longest_wait y' lo = longest_wait y lo.
Proof. exact (created_wait order name pop f default states t w a w' y p start cstep k i lo po). Qed.
Print Assumptions C110_from_the_start.

(** In the circus of C31 (four steps per cycle, activity 1) every person acts at least once in
    8 steps, here after 3 steps. *)
Lemma quad_live : live quad monday hour 0 quad_gen.
Proof. apply (live_new _ _ _ (random_state stream 1)). apply (ok_eq1 (mkCyclic quad (random_state stream 3) 0 [])). vm_compute. reflexivity. Qed.
Definition quad_people : world := calls people [CNewTimer (TCyclic quad_gen) true].
Definition activity_one (w : world) (a : nat) (i : val) : bool :=
  match nth_error (w_stories w) a with
  | Some s => forallb (fun x => forallb (fun y => Qeq_bool (fst (snd y)) 1) (snd x)) (st_params s)
  | None => true
  end.
Lemma activity_one_check w a i : activity_one w a i = true -> activity_at_least w a i 1.
Proof.
  unfold activity_one, activity_at_least. intros H s Hs st q (sts & ab & H1 & H2 & ->). rewrite Hs in H. rewrite forallb_forall in H.
  specialize (H _ H1). cbn [snd] in H. rewrite forallb_forall in H. specialize (H _ H2). cbn [snd] in H.
  apply Qeq_bool_iff in H. rewrite H. apply Qle_refl.
Qed.
Definition quad_story : M nat := create_story keep_order "visits" 0 "PERSON" (0, 1) (Some [("busy"%string, (0, 2))]) 2 true.
Definition quad_visits : world := snd (quad_story quad_people).
Example C110_example : longest_wait quad_gen 1 = 8%Z /\ auto_reset quad_visits 0 true /\ distinct_members quad_visits /\
  activity_at_least quad_visits 0 (s_ "B") 1 /\
  exists w1, history quad_visits (steps 3) w1 /\ exists n, n < 8 /\ acts_at 0 (s_ "B") w1 (steps 8) n.
Proof.
  assert (L : longest_wait quad_gen 1 = 8%Z) by (vm_compute; reflexivity). split; [exact L|].
  assert (A : auto_reset quad_visits 0 true).
  { assert (X : option_map st_auto (nth_error (w_stories quad_visits) 0) = Some true) by (vm_compute; reflexivity).
    destruct (nth_error (w_stories quad_visits) 0) as [s|] eqn:E; [|discriminate]. exists s. split; [exact E|]. now injection X. }
  split; [exact A|].
  assert (D : distinct_members quad_visits).
  { eapply C12_members_distinct. change quad_visits with (calls people [CNewTimer (TCyclic quad_gen) true; visit "visits" 2 true]).
    unfold people. apply built_calls; [apply built_calls; [apply (built_new stream)|]|]; repeat constructor; intros l; apply Permutation_refl. }
  split; [exact D|].
  assert (M : activity_at_least quad_visits 0 (s_ "B") 1) by (apply activity_one_check; vm_compute; reflexivity).
  split; [exact M|].
  assert (E : quad_story quad_people = (Ok 0, quad_visits)).
  { unfold quad_visits. rewrite (ran 0 quad_story quad_people) at 1 by (vm_compute; reflexivity). f_equal. }
  assert (P : exists po, nth_error (w_pops quad_people) 0 = Some po /\ NoDup (p_ids po) /\ In (s_ "B") (p_ids po)).
  { eexists. split; [vm_compute; reflexivity|]. split; [apply nodupb_NoDup; reflexivity|]. right. now left. }
  destruct P as (po & Hp & Np & Hi).
  destruct (C110_from_the_start _ _ _ _ _ _ _ _ _ _ quad_gen quad monday hour 0 (s_ "B") 1%Q po E (fun l => Permutation_refl l) Hp Np Hi eq_refl quad_live M eq_refl)
    as (z & y & Hc & Hz & Ht & Hl & Ey).
  assert (H1 : history quad_visits (steps 3) (after quad_visits (steps 3))) by (apply all_ok_history; vm_compute; reflexivity).
  exists (after quad_visits (steps 3)). split; [exact H1|].
  destruct (C110_bounded_wait quad_visits (steps 3) _ (steps 8) (after (after quad_visits (steps 3)) (steps 8)) 0 (s_ "B") y quad monday hour 0 1%Q z H1) as (n & Hn & Hx); auto.
  - apply all_ok_history. vm_compute. reflexivity.
  - apply nobody_by_check. vm_compute. reflexivity.
  - reflexivity.
  - rewrite Ey. exact Hz.
  - rewrite Ey, L. vm_compute. discriminate.
  - exists n. split; [rewrite Ey, L in Hn; lia|exact Hx].
Qed.
