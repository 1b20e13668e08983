(** Stories without timer generator act when told to, and only then. *)
From Verif Require Import Base BaseFacts Rng Utils Relationship Frame Gens Clock Attribute World Story Ops OpsFacts Circus SpecStory StoryFacts StoryExec StoryProps StoryMore SpecOps StoryWorld StoryWorld2 OpsProps
  StoryForce StoryNew StoryGap SpecPrompt.
From Coq Require Import Permutation.

(** ** A constant timer generator *)
Lemma const_reset s v ids s' g' i : (v < 0)%Z -> reset_timers s (TConst v) ids = Ok (s', g') ->
  g' = TConst v /\ static s s' /\ st_forced s' = st_forced s /\
  (remaining_of s' i = remaining_of s i \/ exists z, (z < 0)%Z /\ remaining_of s' i = Some (Some z)) /\
  (In i (reset_ids s ids) -> exists z, (z < 0)%Z /\ remaining_of s' i = Some (Some z)).
Proof.
  intros Hv H. pose proof H as H0. destruct (reset_spec _ _ _ _ _ H0) as (S & F & _ & _ & Z1 & Z2). clear H0.
  unfold reset_timers in H. fold (reset_ids s ids) in H. destruct (reset_ids s ids) as [|x l] eqn:Eids in H, Z1, Z2 |- *.
  { injection H as -> <-. split; [reflexivity|]. split; [exact S|]. split; [reflexivity|]. split; [now left|]. intros []. }
  rewrite <- Eids in H. clear Z1. destruct (Z2 ltac:(discriminate)) as (act & out & Ha & Hg & Ko & Kn & _). clear Z2. rewrite <- Eids in Ha, Ko, Kn |- *.
  rewrite Ha in H. cbn [bind] in H. clear x l Eids. rewrite Hg in H. cbn [bind] in H.
  destruct (known s (reset_ids s ids)) eqn:K; [|discriminate]. cbn [negb] in H. set (nt := map _ (combine act out)) in H. injection H as <-.
  cbn [tgen_generate] in Hg. injection Hg as <- <-.
  assert (Knt : map fst nt = reset_ids s ids).
  { rewrite <- (get_param_keys _ _ _ _ Ha). unfold nt. rewrite map_map. clear. induction act as [|[j a] act IH]; [reflexivity|]. cbn. now f_equal. }
  assert (Vnt : forall j t, In (j, t) nt -> exists z, (z < 0)%Z /\ t = Some z).
  { intros j t Hj. unfold nt in Hj. apply in_map_iff in Hj as ([[j1 a1] [j2 t2]] & E & Hc). injection E as _ <-. apply in_combine_r, in_map_iff in Hc as (o & E & _). injection E as _ <-.
    destruct (Qeq_bool a1 0); [exists (-1)%Z; split; [lia|reflexivity]|eauto]. }
  change (with_timer s _) with (retimed (fun i st r => (st, match dget_last i nt with Some t => t | None => r end)) s) in *.
  split; [reflexivity|]. split; [exact S|]. split; [reflexivity|].
  assert (R : remaining_of (retimed (fun i st r => (st, match dget_last i nt with Some t => t | None => r end)) s) i =
              option_map (fun r => match dget_last i nt with Some t => t | None => r end) (remaining_of s i)).
  { rewrite (retimed_remaining_f _ (fun j r => match dget_last j nt with Some t => t | None => r end)) by reflexivity. reflexivity. }
  split.
  - rewrite R. destruct (dget_last i nt) as [t|] eqn:El.
    + unfold dget_last in El. apply dget_In in El. rewrite <- in_rev in El. destruct (Vnt _ _ El) as (z & Hz & ->). destruct (remaining_of s i); [right; cbn; eauto|now left].
    + left. now destruct (remaining_of s i).
  - intros Hi. rewrite R. specialize (Kn i Hi). unfold remaining_of. destruct (dget i (st_timer s)) as [[st r]|] eqn:Et; [|apply dget_None in Et; contradiction]. cbn.
    destruct (dget_last i nt) as [t|] eqn:El.
    + unfold dget_last in El. apply dget_In in El. rewrite <- in_rev in El. destruct (Vnt _ _ El) as (z & Hz & ->). eauto.
    + exfalso. unfold dget_last in El. apply dget_None in El. apply El. unfold dkeys. now rewrite map_rev, <- in_rev, Knt.
Qed.

Section Prompt.
  Context (b : nat) (i : val) (v : Z) (Hv : (v < 0)%Z).
  Definition quiet (w : world) : Prop :=
    exists s, nth_error (w_stories w) b = Some s /\ nth_error (w_tgens w) (st_tgen s) = Some (TConst v) /\ forall z, remaining_of s i = Some (Some z) -> (z <= 0)%Z.
  Definition marked (w : world) : Prop := exists s, nth_error (w_stories w) b = Some s /\ In i (st_forced s).
  Definition ready (w : world) : Prop := exists s, nth_error (w_stories w) b = Some s /\ remaining_of s i = Some (Some 0%Z).
  Definition calm (w w' : world) : Prop := quiet w -> quiet w' /\ (marked w' -> marked w) /\ (ready w' -> ready w).

  Lemma calm_refl w : calm w w.
  Proof. intros Q. auto. Qed.
  Lemma calm_trans w1 w2 w3 : calm w1 w2 -> calm w2 w3 -> calm w1 w3.
  Proof. intros A B Q. destruct (A Q) as (Q2 & A1 & A2). destruct (B Q2) as (Q3 & B1 & B2). auto. Qed.
  Lemma calm_same w w' : nth_error (w_stories w') b = nth_error (w_stories w) b ->
    (forall s, nth_error (w_stories w) b = Some s -> nth_error (w_tgens w) (st_tgen s) = Some (TConst v) -> nth_error (w_tgens w') (st_tgen s) = Some (TConst v)) -> calm w w'.
  Proof.
    intros E T (s & Es & Et & Ez). unfold quiet, marked, ready. rewrite E. split; [exists s; auto|auto].
  Qed.

  Lemma calm_force a ids : a <> b -> keeps calm (story_force a ids).
  Proof.
    intros N w. unfold story_force, bindM, deref. destruct (nth_error (w_stories w) a) as [s|] eqn:E; [|apply calm_refl].
    destruct (force_act_next s ids) as [res s']. cbn. apply calm_same; [|auto]. cbn. now apply nth_put_other.
  Qed.
  Lemma calm_reset a ids : keeps calm (story_reset a ids).
  Proof.
    intros w. unfold story_reset, bindM, deref. destruct (nth_error (w_stories w) a) as [s|] eqn:E; [|apply calm_refl].
    destruct (nth_error (w_tgens w) (st_tgen s)) as [g|] eqn:Eg; [|apply calm_refl]. unfold lift.
    destruct (reset_timers s g ids) as [[s' g']|e] eqn:Er; [|apply calm_refl]. cbn.
    destruct (Nat.eq_dec a b) as [->|N].
    - intros (s0 & E0 & Et & Ez). cbn in *. assert (s0 = s) by congruence. subst s0. rewrite Eg in Et. injection Et as ->.
      destruct (const_reset s v ids s' g' i Hv Er) as (-> & S & F & R & _). unfold quiet, marked, ready. cbn. rewrite (nth_put_same _ _ _ _ E).
      split; [|split].
      + exists s'. split; [reflexivity|]. split; [|intros z Hz; destruct R as [R|(z' & Hz' & R)]; [apply Ez; congruence|rewrite R in Hz; injection Hz as <-; lia]].
        replace (st_tgen s') with (st_tgen s) by (destruct S as (_&_&_&S&_); congruence). exact (nth_put_same _ _ _ _ Eg).
      + intros (s1 & [= <-] & H). exists s. split; [exact E|]. now rewrite <- F.
      + intros (s1 & [= <-] & H). exists s. split; [exact E|]. destruct R as [R|(z' & Hz' & R)]; [congruence|]. rewrite R in H. injection H as ->. lia.
    - apply calm_same; cbn; [now apply nth_put_other|]. intros s0 E0 Et. destruct (Nat.eq_dec (st_tgen s) (st_tgen s0)) as [E1|N1].
      + rewrite <- E1 in *. rewrite Eg in Et. injection Et as ->. destruct (const_reset s v ids s' g' i Hv Er) as (-> & _). exact (nth_put_same _ _ _ _ Eg).
      + rewrite nth_put_other; auto.
  Qed.
  Lemma calm_one w s s' : nth_error (w_stories w) b = Some s -> static s s' -> (In i (st_forced s') -> In i (st_forced s)) ->
    ((exists z, (z < 0)%Z /\ remaining_of s' i = Some (Some z)) \/ remaining_of s' i = remaining_of s i) -> calm w (set_stories (set_nth b s' (w_stories w)) w).
  Proof.
    intros E S F R (s0 & E0 & Et & Ez). assert (s0 = s) by congruence. subst s0. unfold quiet, marked, ready. cbn. rewrite (nth_put_same _ _ _ _ E).
    split; [|split].
    - exists s'. split; [reflexivity|]. split; [|intros z Hz; destruct R as [(z' & Hz' & R)|R]; [rewrite R in Hz; injection Hz as <-; lia|apply Ez; congruence]].
      replace (st_tgen s') with (st_tgen s) by (destruct S as (_&_&_&S&_); congruence). exact Et.
    - intros (s1 & [= <-] & H). exists s. auto.
    - intros (s1 & [= <-] & H). exists s. split; [exact E|]. destruct R as [(z' & Hz' & R)|R]; [|congruence]. rewrite R in H. injection H as ->. lia.
  Qed.
  Lemma calm_transit a ids states : keeps calm (story_transit a ids states).
  Proof.
    intros w. unfold story_transit, bindM, deref. destruct (nth_error (w_stories w) a) as [s|] eqn:E; [|apply calm_refl].
    unfold lift. destruct (transit_to_state s ids states) as [s'|e] eqn:Er; [|apply calm_refl]. cbn.
    destruct (Nat.eq_dec a b) as [->|N]; [|apply calm_same; [now apply nth_put_other|auto]].
    destruct (transit_spec _ _ _ _ Er) as (_ & _ & S & F & _). apply (calm_one w s); [exact E|exact S|now rewrite F|]. right. eapply transit_remaining; eauto.
  Qed.
  Lemma calm_tick a ids : keeps calm (story_tick a ids).
  Proof.
    intros w. unfold story_tick, bindM, deref. destruct (nth_error (w_stories w) a) as [s|] eqn:E; [|apply calm_refl].
    unfold lift. destruct (timer_tick s ids) as [s'|e] eqn:Er; [|apply calm_refl]. cbn.
    destruct (Nat.eq_dec a b) as [->|N]; [|apply calm_same; [now apply nth_put_other|auto]].
    destruct (tick_spec _ _ _ Er) as (S & F & _ & T). intros Q. refine (calm_one w s s' E S ltac:(now rewrite F) _ Q). rewrite T.
    destruct Q as (s0 & E0 & _ & Ez). assert (s0 = s) by congruence. subst s0.
    destruct (mem i (tick_ids s ids)); [|now right]. destruct (remaining_of s i) as [[z|]|] eqn:Er0; cbn; [|now right|now right].
    specialize (Ez z eq_refl). destruct (0 <=? z)%Z eqn:Ez0; cbn; [left; exists (z - 1)%Z; split; [lia|reflexivity]|now right].
  Qed.
  Lemma calm_op o d : forces_story b o = false -> keeps calm (run_op o d).
  Proof.
    intros N. apply (run_op_keeps calm (fun a => a <> b) (fun _ => True) (fun _ => True)); auto using calm_refl.
    - apply calm_trans.
    - intros; now apply calm_same.
    - intros; now apply calm_same.
    - intros; now apply calm_same.
    - intros; now apply calm_same.
    - intros; now apply calm_same.
    - intros; now apply calm_same.
    - intros; now apply calm_force.
    - intros; apply calm_reset.
    - intros; apply calm_transit.
    - intros a Ha ->. congruence.
  Qed.

  (** ** Only when told *)
  Definition prompts (o : op) (d : df) (w w' : world) : Prop :=
    quiet w -> quiet w' /\ (marked w' -> marked w \/ told b i o d w) /\ (ready w' -> ready w \/ told b i o d w).
  Lemma prompted_op o : forall d w d' l w', run_op o d w = (Ok (d', l), w') -> prompts o d w w'.
  Proof.
    induction o as [o Hb|ops IH] using op_ind'; intros d w d' l w' H Q.
    - destruct (forces_story b o) eqn:Ef.
      + destruct o; try discriminate; [|exfalso; eapply Hb; reflexivity]. cbn in Ef. apply Nat.eqb_eq in Ef. subst story.
        destruct (df_rows d) as [|r0 rows] eqn:Ed.
        { cbn [run_op] in H. unfold if_rows in H. rewrite Ed in H. injection H as _ _ <-. auto. }
        apply force_op_ok in H as (-> & -> & ids & Ei & H); [|rewrite Ed; discriminate].
        apply story_force_ok in H as (s & s' & Es & Ef & ->). destruct (force_spec _ _ _ _ Ef) as (S & _ & Ff & _ & R & _). specialize (R eq_refl i).
        pose proof (force_ids_In _ _ _ _ Ei i) as Hin. destruct (mem i ids) eqn:Em.
        * apply mem_In in Em. apply Hin in Em as (Nn & row & Hr & Hc & Hcond). assert (T : told b i (OpForce b id_field condition) d w) by (eapply told_by; eauto).
          split; [|auto]. destruct Q as (s0 & E0 & Et & _). assert (s0 = s) by congruence. subst s0. exists s'. cbn. rewrite (nth_put_same _ _ _ _ Es). split; [reflexivity|].
          split; [replace (st_tgen s') with (st_tgen s) by (destruct S as (_&_&_&S&_); congruence); exact Et|]. intros z Hz. rewrite R in Hz. destruct (remaining_of s i); [|discriminate]. injection Hz as <-. lia.
        * apply mem_not_In in Em. assert (F : In i (st_forced s') -> In i (st_forced s)) by (intros F; apply Ff in F; tauto).
          destruct (calm_one w s s' Es S F (or_intror R) Q) as (Q' & M & Rd). auto.
      + pose proof (calm_op o d Ef w) as C. rewrite H in C. destruct (C Q) as (Q' & M & R). auto.
    - change (run_op (OpChain ops) d w) with (run_chain ops d w) in H.
      assert (G : forall rest before d1 l1 w1 d2 l2 w2, ops = before ++ rest -> run_chain before d w = (Ok (d1, l1), w1) -> run_list run_op rest d1 l1 w1 = (Ok (d2, l2), w2) -> quiet w1 ->
        quiet w2 /\ (marked w2 -> marked w1 \/ told b i (OpChain ops) d w) /\ (ready w2 -> ready w1 \/ told b i (OpChain ops) d w)).
      { intros rest. induction rest as [|o rest IHr]; intros before d1 l1 w1 d2 l2 w2 Eo Hb Hr Q1.
        - cbn in Hr. injection Hr as _ _ <-. auto.
        - assert (Hb2 : run_chain (before ++ [o]) d w = run_list run_op [o] d1 l1 w1) by (unfold run_chain in *; rewrite run_list_app; unfold bindM; now rewrite Hb).
          cbn [run_list] in Hr, Hb2. unfold bindM at 1 in Hr. unfold bindM at 1 in Hb2. destruct (run_op o d1 w1) as [[[d3 l3]|e] w3] eqn:E3; [|discriminate].
          unfold bindM, lift in Hr, Hb2. destruct (merge_dicts [l1; l3] (Some df_concat)) as [l4|e] eqn:E4 in Hr; [|discriminate].
          rewrite E4 in Hb2. cbn [ret] in Hb2.
          rewrite Forall_forall in IH. destruct (IH o ltac:(rewrite Eo; apply in_or_app; right; now left) _ _ _ _ _ E3 Q1) as (Q3 & M3 & R3).
          destruct (IHr (before ++ [o]) d3 l4 w3 d2 l2 w2) as (Q2 & M2 & R2); [now rewrite <- app_assoc|exact Hb2|exact Hr|exact Q3|].
          assert (T : told b i o d1 w1 -> told b i (OpChain ops) d w) by (intros T; rewrite Eo; eapply told_in; eauto).
          split; [exact Q2|]. split; [intros X; destruct (M2 X) as [Y|Y]; [destruct (M3 Y)|]; auto|intros X; destruct (R2 X) as [Y|Y]; [destruct (R3 Y)|]; auto]. }
      apply (G ops [] d [] w d' l w'); auto.
  Qed.

  Lemma quiet_unforced a s w : nth_error (w_stories w) a = Some s -> quiet w -> quiet (unforced a s w) /\ (ready (unforced a s w) -> ready w) /\ (a = b -> ~ marked (unforced a s w)).
  Proof.
    intros Es Q. unfold quiet, ready, marked, unforced. cbn. destruct (Nat.eq_dec a b) as [->|N].
    - rewrite (nth_put_same _ _ _ _ Es). destruct Q as (s0 & E0 & Et & Ez). assert (s0 = s) by congruence. subst s0. split; [exists (with_forced s []); auto|].
      split; [intros (s1 & [= <-] & H); exists s; auto|]. intros _ (s1 & [= <-] & H). destruct H.
    - rewrite nth_put_other by auto. split; [exact Q|]. split; [auto|]. intros E. contradiction.
  Qed.
  Lemma clock_const l : forall ts k, nth_error ts k = Some (TConst v) ->
    nth_error (fold_left (fun gens i => match nth_error gens i with Some t => set_nth i (tgen_increment t) gens | None => gens end) l ts) k = Some (TConst v).
  Proof.
    induction l as [|x l IH]; intros ts k H; cbn; [exact H|]. apply IH. destruct (nth_error ts x) as [t|] eqn:E; [|exact H].
    destruct (Nat.eq_dec x k) as [->|N]; [|now rewrite nth_put_other]. rewrite (nth_put_same _ _ _ _ H). rewrite E in H. injection H as ->. reflexivity.
  Qed.

  Lemma step_prompts h w w' : distinct_members w -> quiet w -> happen h w = (Ok tt, w') ->
    quiet w' /\ (ready w' -> told_during b i w h \/ ready w /\ executions b [h] = 0).
  Proof.
    intros D Q H.
    assert (Calm : keeps calm (happen h) -> executions b [h] = 0 -> quiet w' /\ (ready w' -> told_during b i w h \/ ready w /\ executions b [h] = 0)).
    { intros C E. specialize (C w). rewrite H in C. destruct (C Q) as (Q' & _ & R). auto. }
    destruct h as [a| |a ids|a ids|a ids states|a ids].
    - cbn [happen] in H. destruct (execute a w) as [[l|e] w1] eqn:Ex; [|discriminate]. injection H as <-.
      apply execute_ok in Ex as (s & Es & Hx). destruct (quiet_unforced a s w Es Q) as (Qu & Ru & Mu).
      assert (X : executions b [HExec a] = if Nat.eqb a b then 1 else 0) by (cbn; rewrite (Nat.eqb_sym a b); now destruct (b =? a)).
      destruct Hx as [(Ed & _ & Ht)|(Ed & d' & w2 & w3 & Hc & Hm & Ht)].
      + pose proof (calm_tick a (snd (active_inactive_ids s)) (unforced a s w)) as C. rewrite Ht in C. destruct (C Qu) as (Q' & _ & R'). split; [exact Q'|].
        intros R. apply R', Ru in R. right. split; [exact R|]. rewrite X. destruct (Nat.eqb_spec a b) as [->|N]; [|reflexivity]. exfalso.
        destruct R as (s0 & E0 & R). assert (s0 = s) by congruence. subst s0. apply due_iff in R; [|exact (D _ _ Es)]. rewrite Ed in R. destruct R.
      + change (run_op (OpChain (st_ops s)) (story_rows (st_field s) (due_members s)) (unforced a s w) = (Ok (d', l), w2)) in Hc.
        destruct (prompted_op _ _ _ _ _ _ Hc Qu) as (Q2 & M2 & R2).
        assert (Ctick : calm w3 w1). { pose proof (calm_tick a (snd (active_inactive_ids s)) w3) as C. now rewrite Ht in C. }
        assert (Cmid : calm w2 w3). { destruct (st_auto s); [pose proof (calm_reset a (Some (due_members s)) w2) as C|pose proof (calm_tick a (due_members s) w2) as C]; now rewrite Hm in C. }
        destruct (Cmid Q2) as (Q3 & _ & R3). destruct (Ctick Q3) as (Q1 & _ & R1). split; [exact Q1|].
        intros R. apply R1 in R.
        assert (T : told b i (OpChain (st_ops s)) (story_rows (st_field s) (due_members s)) (unforced a s w) -> told_during b i w (HExec a)).
        { intros T. exists s. split; [exact Es|]. split; [exact Ed|]. now rewrite (at_start_unforced _ _ _ Es). }
        destruct (R2 (R3 R)) as [Y|Y]; [|auto]. apply Ru in Y. rewrite X. destruct (Nat.eqb_spec a b) as [Eab|N]; [|auto]. left. apply T. clear T.
        assert (Mk : marked w2 -> told b i (OpChain (st_ops s)) (story_rows (st_field s) (due_members s)) (unforced a s w)) by (intros M; destruct (M2 M) as [M'|M']; [destruct (Mu Eab M')|exact M']).
        clear M2 Mu. subst a. destruct Y as (s0 & E0 & Y). assert (s0 = s) by congruence. subst s0. apply due_iff in Y; [|exact (D _ _ Es)].
        destruct Q2 as (s2 & E2 & T2 & Z2). apply Mk. exists s2. split; [exact E2|]. destruct (mem i (st_forced s2)) eqn:Ef; [now apply mem_In|]. apply mem_not_In in Ef. exfalso.
        destruct R as (s3 & E3 & R). destruct (st_auto s).
        * apply story_reset_ok in Hm as (s2' & s3' & g & g' & E2' & Eg & Er & ->). assert (s2' = s2) by congruence. subst s2'. rewrite T2 in Eg. injection Eg as <-.
          cbn in E3. rewrite (nth_put_same _ _ _ _ E2) in E3. injection E3 as ->. destruct (const_reset s2 v _ s3 g' i Hv Er) as (_ & _ & _ & _ & C).
          destruct C as (z & Hz & C); [unfold reset_ids; apply index_difference_In; auto|]. rewrite C in R. injection R as ->. lia.
        * apply story_tick_ok in Hm as (s2' & s3' & E2' & Er & ->). assert (s2' = s2) by congruence. subst s2'.
          cbn in E3. rewrite (nth_put_same _ _ _ _ E2) in E3. injection E3 as ->. destruct (tick_spec _ _ _ Er) as (_ & _ & _ & C). rewrite C in R.
          replace (mem i (tick_ids s2 (due_members s))) with true in R by (symmetry; apply mem_In, tick_ids_In; auto).
          destruct (remaining_of s2 i) as [[z|]|]; try discriminate. specialize (Z2 z eq_refl). cbn in R. destruct (0 <=? z)%Z eqn:Ez; injection R as R; lia.
    - apply Calm; [|reflexivity]. intros w0. cbn [happen snd]. apply calm_same; [reflexivity|]. intros s0 _ Et. unfold increment_clock, clock_increment. cbn. now apply clock_const.
    - cbn [happen] in H. destruct (Nat.eq_dec a b) as [->|N]; [|apply Calm; [now apply calm_force|reflexivity]].
      apply story_force_ok in H as (s & s' & Es & Ef & ->). destruct (force_spec _ _ _ _ Ef) as (S & _ & Ff & _ & R & _). specialize (R eq_refl i). destruct (mem i ids) eqn:Em.
      + apply mem_In in Em. split; [|left; cbn; auto]. destruct Q as (s0 & E0 & Et & _). assert (s0 = s) by congruence. subst s0. exists s'. cbn. rewrite (nth_put_same _ _ _ _ Es). split; [reflexivity|].
        split; [replace (st_tgen s') with (st_tgen s) by (destruct S as (_&_&_&S&_); congruence); exact Et|]. intros z Hz. rewrite R in Hz. destruct (remaining_of s i); [|discriminate]. injection Hz as <-. lia.
      + apply mem_not_In in Em. assert (F : In i (st_forced s') -> In i (st_forced s)) by (intros F; apply Ff in F; tauto). destruct (calm_one w s s' Es S F (or_intror R) Q) as (Q' & M & Rd). split; [exact Q'|]. right. auto.
    - apply Calm; [apply calm_reset|reflexivity].
    - apply Calm; [apply calm_transit|reflexivity].
    - apply Calm; [apply calm_tick|reflexivity].
  Qed.

  Lemma prompted l : forall w w', distinct_members w -> quiet w -> ~ ready w -> history w l w' -> ready w' ->
    exists before h rest w1, l = before ++ h :: rest /\ history w before w1 /\ told_during b i w1 h /\ executions b rest = 0.
  Proof.
    assert (G : forall w w', distinct_members w -> quiet w -> history w l w' -> ready w' ->
      (exists before h rest w1, l = before ++ h :: rest /\ history w before w1 /\ told_during b i w1 h /\ executions b rest = 0) \/ ready w /\ executions b l = 0).
    { induction l as [|h l IH]; intros w w' D Q H R; inversion H; subst; [right; auto|].
      match goal with E : happen h w = (Ok tt, ?x) |- _ => rename E into Hh; rename x into wm end.
      destruct (step_prompts h w wm D Q Hh) as (Qm & Rm). pose proof (happen_distinct h w D) as Dm. rewrite Hh in Dm. cbn [snd] in Dm.
      destruct (IH wm w' Dm Qm ltac:(assumption) R) as [(before & x & rest & w1 & -> & Hb & T & E)|[Y E]].
      - left. exists (h :: before), x, rest, w1. split; [reflexivity|]. split; [econstructor; eauto|auto].
      - destruct (Rm Y) as [T|[Y' E']].
        + left. exists [], h, l, w. split; [reflexivity|]. split; [constructor|auto].
        + right. split; [exact Y'|]. destruct h as [a| | | | | ]; cbn in *; auto. destruct (b =? a); [discriminate E'|exact E]. }
    intros w w' D Q N H R. destruct (G w w' D Q H R) as [X|[X _]]; [exact X|contradiction].
  Qed.

  (** ** Whenever told *)
  Lemma told_marks o d w : told b i o d w -> forall d' l w', run_op o d w = (Ok (d', l), w') ->
    exists s, nth_error (w_stories w') b = Some s /\ In i (st_forced s) /\ remaining_of s i = Some (Some 0%Z).
  Proof.
    induction 1 as [f cond d w row Hrow Hcell Hna Hcond|before o rest d w d1 l1 w1 Hb T IH]; intros d' l w' H.
    - apply force_op_ok in H as (-> & -> & ids & Ei & H); [|intros E; rewrite E in Hrow; destruct Hrow].
      assert (Hi : In i ids) by (apply (force_ids_In _ _ _ _ Ei); split; [exact Hna|]; exists row; auto).
      apply story_force_ok in H as (s1 & s2 & Es1 & Ef & ->). destruct (force_spec _ _ _ _ Ef) as (_ & _ & Hf2 & Hk & Hr2 & _).
      exists s2. cbn. rewrite (nth_put_same _ _ _ _ Es1). split; [reflexivity|]. split; [apply Hf2; auto|]. rewrite (Hr2 eq_refl), (proj2 (mem_In i ids) Hi).
      specialize (Hk eq_refl i Hi). unfold remaining_of, st_ids in *. destruct (dget i (st_timer s1)) eqn:Eg; [reflexivity|]. apply dget_None in Eg. tauto.
    - change (run_op (OpChain (before ++ o :: rest)) d w) with (run_list run_op (before ++ o :: rest) d [] w) in H.
      rewrite run_list_app in H. unfold run_chain in Hb. unfold bindM in H. rewrite Hb in H. cbn [run_list] in H. unfold bindM at 1 in H.
      destruct (run_op o d1 w1) as [[[d3 l3]|e] w3] eqn:E3; [|discriminate]. unfold bindM, lift in H. destruct (merge_dicts [l1; l3] (Some df_concat)) as [l4|e]; [|discriminate].
      destruct (IH _ _ _ eq_refl) as (s & Es & F & R).
      assert (Hrest : stories_rel (forced_same b i) w3 w').
      { pose proof (run_list_logs run_op rest d3 l4 w3) as HL. pose proof (chain_forced b i rest d3 w3) as HC. unfold run_chain in HC.
        destruct (run_list run_op rest d3 [] w3) as [[[d'' l'']|e] v''].
        - destruct HL as (l2' & HL & _). rewrite H in HL. injection HL as _ _ <-. exact HC.
        - rewrite H in HL. discriminate. }
      destruct Hrest as [_ Hrest]. destruct (Hrest b s Es) as (s' & Es' & _ & K). destruct (K eq_refl F R). eauto.
  Qed.
  Lemma told_acts h w w' rest : distinct_members w -> told_during b i w h -> happen h w = (Ok tt, w') -> executions b rest = 0 -> acts_now (after w' rest) b i.
  Proof.
    intros D T H X. pose proof (happen_distinct h w D) as D'. rewrite H in D'. cbn [snd] in D'.
    assert (Fin : forall rest' w2 s, executions b rest' = 0 -> nth_error (w_stories w2) b = Some s -> In i (st_forced s) -> remaining_of s i = Some (Some 0%Z) -> after w2 rest' = after w' rest -> acts_now (after w' rest) b i).
    { intros rest' w2 s E Es F R Ea. destruct (after_forced b i rest' w2 s E Es F R) as (s4 & Es4 & _ & _ & R4). rewrite Ea in Es4. apply (acts_now_iff _ _ _ s4 Es4); [|exact R4].
      exact (after_distinct rest w' D' _ _ Es4). }
    destruct h as [a| |a ids|a ids|a ids states|a ids]; try contradiction T.
    - destruct T as (s & Hs & Ned & T). cbn [happen] in H. destruct (execute a w) as [[l|e] w1] eqn:Ex; [|discriminate]. injection H as ->.
      apply execute_ok in Ex as (s0 & Es & Hx). assert (s0 = s) by congruence. subst s0. rewrite (at_start_unforced _ _ _ Es) in T.
      destruct Hx as [(Ed & _)|(_ & d' & w2 & w3 & Hc & Hm & Ht)]; [contradiction|].
      destruct (told_marks _ _ _ T d' l w2 Hc) as (s2 & Es2 & F2 & R2).
      assert (exists h1, executions b [h1] = 0 /\ happen h1 w2 = (Ok tt, w3)) as (h1 & N1 & E1).
      { destruct (st_auto s); [exists (HReset a (Some (due_members s)))|exists (HTick a (due_members s))]; (split; [reflexivity|exact Hm]). }
      set (h2 := HTick a (snd (active_inactive_ids s))). assert (E2 : happen h2 w3 = (Ok tt, w')) by exact Ht.
      apply (Fin (h1 :: h2 :: rest) w2 s2); auto; [destruct h1; cbn in *; try exact X; lia|]. cbn [after]. rewrite E1. cbn [snd]. rewrite E2. reflexivity.
    - destruct T as [-> Hi]. cbn [happen] in H. apply story_force_ok in H as (s1 & s2 & Es1 & Ef & Ew). destruct (force_spec _ _ _ _ Ef) as (_ & _ & Hf2 & Hk & Hr2 & _).
      apply (Fin rest w' s2); auto; [rewrite Ew; cbn; exact (nth_put_same _ _ _ _ Es1)|apply Hf2; auto|]. rewrite (Hr2 eq_refl), (proj2 (mem_In i ids) Hi).
      specialize (Hk eq_refl i Hi). unfold remaining_of, st_ids in *. destruct (dget i (st_timer s1)) eqn:Eg; [reflexivity|]. apply dget_None in Eg. tauto.
  Qed.
End Prompt.

(** ** In terms of the world *)
Lemma acts_ready w b i : distinct_members w -> acts_now w b i <-> ready b i w.
Proof.
  intros D. split.
  - intros H. destruct H as (s & Es & Hi). exists s. split; [exact Es|]. apply due_iff; [exact (D b s Es)|exact Hi].
  - intros (s & Es & Hr). exists s. split; [exact Es|]. apply due_iff; [exact (D b s Es)|exact Hr].
Qed.
Lemma without_timer_quiet w b i : distinct_members w -> without_timer w b -> exists v, (v < 0)%Z /\ quiet b i v w /\ ~ ready b i w.
Proof.
  intros D ((v & Hv & s & Es & Et) & K). exists v. split; [exact Hv|].
  assert (Z : forall z, remaining_of s i = Some (Some z) -> (z < 0)%Z) by (intros z Hz; apply (K i z); apply (counter_iff _ _ _ _ s Es (D b s Es)); exact Hz).
  split; [exists s; split; [exact Es|]; split; [exact Et|]; intros z Hz; specialize (Z z Hz); lia|].
  intros (s' & Es' & Hr). assert (s' = s) by congruence. subst s'. specialize (Z _ Hr). lia.
Qed.
Lemma only_when_told w b i hs w' : distinct_members w -> without_timer w b -> history w hs w' -> acts_now w' b i ->
  exists before h rest w1, hs = before ++ h :: rest /\ history w before w1 /\ told_during b i w1 h /\ executions b rest = 0.
Proof.
  intros D T H A. destruct (without_timer_quiet w b i D T) as (v & Hv & Q & N).
  refine (prompted b i v Hv hs w w' D Q N H _). apply acts_ready; [|exact A]. rewrite (history_after _ _ _ H). exact (after_distinct hs w D).
Qed.
Lemma whenever_told w b i hs w' before h rest w1 : distinct_members w -> history w hs w' -> hs = before ++ h :: rest -> history w before w1 -> told_during b i w1 h -> executions b rest = 0 ->
  acts_now w' b i.
Proof.
  intros D H -> Hb T E. apply history_app in H as (w2 & H2 & H). assert (w2 = w1) by (rewrite (history_after _ _ _ H2); symmetry; exact (history_after _ _ _ Hb)). subst w2.
  inversion H as [|? ? w3 ? ? Hh Hr]; subst. rewrite (history_after _ _ _ Hr). refine (told_acts b i h w1 w3 rest _ T Hh E). rewrite (history_after _ _ _ Hb). exact (after_distinct before w D).
Qed.
Lemma created_without_timer order name p f default states t auto w a w' po v : create_story order name p f default states t auto w = (Ok a, w') -> (forall l, Permutation (order l) l) ->
  nth_error (w_pops w) p = Some po -> NoDup (p_ids po) -> nth_error (w_tgens w) t = Some (TConst v) -> (v < 0)%Z -> without_timer w' a.
Proof.
  intros H Ho Hp Nd Ht Hv. destruct (create_story_ok _ _ _ _ _ _ _ _ _ _ _ H Ho) as (s & w1 & _ & Hs & _ & -> & ->).
  destruct (new_story_ok _ _ _ _ _ _ _ _ _ _ _ Hs Ho) as (po' & gens & cols & g' & sb & Hp' & Ew & St & _ & _ & Hsb & _ & _ & Hr).
  assert (po' = po) by congruence. subst po'.
  assert (Es : nth_error (w_stories (set_stories (w_stories w ++ [s]) w1)) (length (w_stories w)) = Some s) by (cbn [w_stories set_stories]; rewrite nth_error_app2, Nat.sub_diag by lia; reflexivity).
  assert (Hids : st_ids sb = p_ids po) by (rewrite Hsb; unfold st_ids, dkeys; cbn; unfold fresh_timer; rewrite map_map; apply map_id).
  assert (Fresh : forall i r, remaining_of sb i = Some r -> r = Some (-1)%Z).
  { intros i r E. rewrite Hsb in E. unfold remaining_of in E. cbn in E. destruct (dget i (fresh_timer (p_ids po))) as [[st r']|] eqn:Eg; [|discriminate]. injection E as <-.
    apply dget_In in Eg. unfold fresh_timer in Eg. apply in_map_iff in Eg as (j & Ej & _). congruence. }
  destruct St as (_ & _ & _ & S4 & _ & _ & _ & _ & S9).
  assert (Et : st_tgen s = t) by (rewrite S4, Hsb; reflexivity).
  assert (G : nth_error (w_tgens w1) t = Some (TConst v) /\ forall i z, remaining_of s i = Some (Some z) -> (z < 0)%Z).
  { destruct auto.
    - destruct Hr as (g & g1 & Hg & Hr & ->). assert (g = TConst v) by congruence. subst g.
      assert (Hc := fun i => const_reset sb v None s g1 i Hv Hr). destruct (Hc VNA) as (-> & _). split; [rewrite Ew; cbn; try exact (nth_put_same _ _ _ _ Ht)|].
      intros i z Hz. destruct (Hc i) as (_ & _ & _ & [K|(z' & Hz' & K)] & _); [|congruence]. rewrite K in Hz. apply Fresh in Hz. injection Hz as ->. lia.
    - subst s. split; [rewrite Ew; exact Ht|]. intros i z Hz. apply Fresh in Hz. injection Hz as ->. lia. }
  destruct G as [G1 G2]. split.
  - exists v. split; [exact Hv|]. exists s. split; [exact Es|]. rewrite Et. exact G1.
  - intros i z Hc. apply (counter_iff _ _ _ _ s Es) in Hc; [exact (G2 _ _ Hc)|]. rewrite S9, Hids. exact Nd.
Qed.
