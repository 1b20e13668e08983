(** Resets that give delays: when a reset member acts, and in which period. *)
From Verif Require Import Base BaseFacts Rng RngFacts Utils UtilsFacts Relationship RelationshipFacts Frame Gens GensProps
  Clock SpecClock ClockProps Attribute AttributeFacts World Story Ops OpsFacts Fs Circus SpecStory StoryFacts StoryExec
  StoryProps SpecOps OpsProps OpsColumns StoryMore StoryStates StoryBack.
From Coq Require Import Lqa.

(** ** Properties of timer generators that generating keeps *)
Section Gen.
  Context (P : tgen -> Prop).
  Hypothesis Pgen : forall g obs out g', P g -> tgen_generate g obs = Ok (out, g') -> P g'.
  Definition tg_at (t : nat) (w : world) : Prop := exists g, nth_error (w_tgens w) t = Some g /\ P g.
  Definition tg_kept (t : nat) (w w' : world) : Prop := tg_at t w -> tg_at t w'.

  Lemma tg_same t w w' : w_tgens w' = w_tgens w -> tg_kept t w w'.
  Proof. intros E H. unfold tg_at. now rewrite E. Qed.

  Lemma tg_reset_gen s g ids s' g' : reset_timers s g ids = Ok (s', g') -> P g -> P g'.
  Proof.
    intros H Hp. destruct (reset_spec _ _ _ _ _ H) as (_ & _ & _ & _ & E1 & E2).
    destruct (reset_ids s ids) as [|x l] eqn:E.
    - destruct (E1 eq_refl) as [_ ->]. exact Hp.
    - destruct (E2 ltac:(discriminate)) as (act & out & _ & Hg & _). eauto.
  Qed.

  Lemma tg_reset t a ids : keeps (tg_kept t) (story_reset a ids).
  Proof.
    intros w Hc. unfold story_reset, bindM, deref, lift.
    destruct (nth_error (w_stories w) a) as [s|] eqn:Es; [|exact Hc].
    destruct (nth_error (w_tgens w) (st_tgen s)) as [g|] eqn:Eg; [|exact Hc].
    destruct (reset_timers s g ids) as [[s' g']|e] eqn:Er; [|exact Hc].
    destruct Hc as (gt & Hg & Hp). unfold tg_at. cbn. rewrite nth_error_set_nth, Hg.
    destruct (Nat.eqb_spec (st_tgen s) t) as [E|N]; [|eauto].
    rewrite E, Hg in Eg. injection Eg as <-. exists g'. split; [reflexivity|]. eapply tg_reset_gen; eauto.
  Qed.

  Lemma tg_force t a ids : keeps (tg_kept t) (story_force a ids).
  Proof.
    intros w. apply tg_same. unfold story_force, bindM, deref.
    destruct (nth_error (w_stories w) a) as [s|]; [|reflexivity].
    destruct (force_act_next s ids). reflexivity.
  Qed.
  Lemma tg_transit t a ids st : keeps (tg_kept t) (story_transit a ids st).
  Proof.
    intros w. apply tg_same. unfold story_transit, bindM, deref, lift.
    destruct (nth_error (w_stories w) a) as [s|]; [|reflexivity].
    destruct (transit_to_state s ids st); reflexivity.
  Qed.

  Lemma chain_tg t ops d : keeps (tg_kept t) (run_chain ops d).
  Proof.
    apply (run_chain_keeps (tg_kept t) (fun _ => True) (fun _ => True) (fun _ => True)); auto.
    all: try (intros; now apply tg_same).
    - unfold tg_kept. auto.
    - intros; apply tg_force.
    - intros; apply tg_reset.
    - intros; apply tg_transit.
  Qed.
End Gen.

Lemma delays_gen g obs out g' : delays g -> tgen_generate g obs = Ok (out, g') -> delays g'.
Proof.
  intros [(c & Hc & ->)|(p & start & cstep & k & y & Hl & ->)] H; cbn [tgen_generate] in H.
  - injection H as _ <-. left. eauto.
  - apply bind_ok in H as ([ts y'] & H & E). injection E as _ <-. right. exists p, start, cstep, k, y'.
    split; [eapply live_generate; eauto|reflexivity].
Qed.

Definition cyclic_at (p : timer_profile) (start cstep : Z) (k bins : nat) (g : tgen) : Prop :=
  exists y, live p start cstep k y /\ y_bins y = bins /\ g = TCyclic y.
Lemma live_gen p start cstep k bins g obs out g' : cyclic_at p start cstep k bins g ->
  tgen_generate g obs = Ok (out, g') -> cyclic_at p start cstep k bins g'.
Proof.
  intros (y & Hl & Hb & ->) H. cbn [tgen_generate] in H. apply bind_ok in H as ([ts y'] & H & E). injection E as _ <-.
  exists y'. split; [eapply live_generate; eauto|]. split; [|reflexivity].
  unfold cyclic_generate in H. destruct (draws uniform _ _). destruct (draws Rng.beta _ _).
  apply bind_ok in H as (ts' & _ & H). injection H as _ <-. exact Hb.
Qed.

Lemma delays_values g obs out g' i q t : delays g -> tgen_generate g obs = Ok (out, g') -> NoDup (map fst obs) ->
  In (i, q) obs -> (0 < q)%Q -> In (i, t) out -> exists n, t = Some (Z.of_nat n).
Proof.
  intros Hd H Nd Hi Hq Ht. pose proof (tgen_labels _ _ _ _ H) as Hl.
  destruct Hd as [(c & Hc & ->)|(p & start & cstep & k & y & Hv & ->)]; cbn [tgen_generate] in H.
  - injection H as <- _. apply in_map_iff in Ht as (o & E & _). injection E as <- <-. exists (Z.to_nat c). f_equal. lia.
  - apply bind_ok in H as ([ts y'] & H & E). injection E as <- _.
    destruct (generate_timers _ _ _ _ _ _ Hv Nd) as (ts0 & y0 & E0 & L0 & HF).
    assert (ts0 = ts) by congruence. subst ts0. clear E0.
    revert Nd Hi Ht. clear H Hl. revert L0. induction HF as [|o t0 obs ts Hot HF IH]; intros L Nd Hi Ht; [destruct Hi|].
    cbn in L. injection L as L1 L2. cbn in Nd. inversion Nd; subst.
    assert (Hno : forall x, ~ In (fst o, x) obs) by (intros x Hx; apply H1; apply in_map_iff; exists (fst o, x); auto).
    assert (Hnt : forall x, ~ In (fst o, x) ts) by (intros x Hx; apply H1; rewrite <- L2; apply in_map_iff; exists (fst o, x); auto).
    destruct Hi as [->|Hi], Ht as [->|Ht]; cbn in *.
    + destruct t as [z|]; [|lra]. exists (Z.to_nat z). f_equal. lia.
    + exfalso. subst. eapply Hnt; eauto.
    + exfalso. subst. eapply Hno; eauto.
    + apply IH; auto.
Qed.

Definition addressed := reset_names.

Lemma reset_delay s g ids s' g' i : reset_timers s g ids = Ok (s', g') -> NoDup (st_ids s) ->
  match ids with Some l => NoDup l | None => True end -> delays g -> addressed s ids i -> ~ In i (st_forced s) ->
  (forall st q, activity_in s i st q -> (0 < q)%Q) ->
  exists n, remaining_of s' i = Some (Some (Z.of_nat n)).
Proof.
  intros H Nd Ndi Hd Ha Hf Hact. destruct (reset_rows _ _ _ _ _ H Nd Ndi) as (act & cnt & Hk & Hg & Hv & Hr & _).
  assert (Hi : In i (reset_ids s ids)) by (apply reset_addressed; auto).
  destruct (Hr i Hi) as (q & t & Hq & Ht & E). destruct (Hv i q Hq) as (st & _ & Hdec).
  apply declared_activity in Hdec. pose proof (Hact _ _ Hdec) as Hpos.
  assert (Hne : act <> []) by (intros ->; destruct Hq). specialize (Hg Hne).
  assert (Nda : NoDup (map fst act)).
  { rewrite Hk. unfold reset_ids. apply index_difference_NoDup. destruct ids; assumption. }
  destruct (delays_values _ _ _ _ i q t Hd Hg Nda Hq Hpos Ht) as (n & ->). exists n. rewrite E.
  destruct (Qeq_bool q 0) eqn:Eq; [apply Qeq_bool_iff in Eq; lra|reflexivity].
Qed.

(** ** A reset called by the user *)
Lemma user_reset a ids w w' s g i : happen (HReset a ids) w = (Ok tt, w') -> nth_error (w_stories w) a = Some s ->
  NoDup (st_ids s) -> match ids with Some l => NoDup l | None => True end ->
  nth_error (w_tgens w) (st_tgen s) = Some g -> delays g -> addressed s ids i -> ~ In i (st_forced s) ->
  (forall st q, activity_in s i st q -> (0 < q)%Q) ->
  exists n s', nth_error (w_stories w') a = Some s' /\ static s s' /\ remaining_of s' i = Some (Some (Z.of_nat n)).
Proof.
  intros H Hs Nd Ndi Hg Hd Ha Hf Hact. apply story_reset_ok in H. destruct H as (s0 & s' & g0 & g' & E1 & E2 & E3 & ->).
  assert (s0 = s) by congruence. subst s0. assert (g0 = g) by congruence. subst g0.
  destruct (reset_delay _ _ _ _ _ i E3 Nd Ndi Hd Ha Hf Hact) as (n & Hn). exists n, s'.
  split; [cbn [w_stories set_stories set_tgens]; eapply nth_put_same; eauto|]. split; [|exact Hn].
  now destruct (reset_spec _ _ _ _ _ E3) as (St & _).
Qed.


Lemma reset_op_ids a f d w d' l w' : run_op (OpReset a f) d w = (Ok (d', l), w') ->
  exists ids, story_reset a (Some ids) w = (Ok tt, w') /\ (NoDup (df_index d) -> NoDup ids) /\
    forall i, names_row f d i -> In i ids.
Proof.
  intros H. cbn [run_op] in H. unfold side_effect in H. mstep H. destruct x. injection H as _ _ <-. destruct f as [c|].
  - mstep E. apply lift_ok in E0. destruct E0 as [E0 ->]. eexists. split; [exact E|]. split; [intros _; apply uniq_NoDup|].
    intros i (row & Hr & Hc & Hn). apply uniq_In. apply get_col_cells in E0. subst x. apply in_map_iff. exists (fst row, i).
    split; [reflexivity|]. unfold dropna. apply filter_In. split.
    + apply in_map_iff. exists row. rewrite <- Hc. auto.
    + cbn. destruct i; try reflexivity. congruence.
  - exists (df_index d). split; [exact E|]. split; [auto|]. intros i (row & Hr & <-). now apply in_map.
Qed.

Lemma other_reset a b w l w' s sb g i f ops1 ops2 d1 l1 w1 :
  execute b w = (Ok l, w') -> a <> b -> nth_error (w_stories w) a = Some s -> nth_error (w_stories w) b = Some sb ->
  NoDup (st_ids s) -> NoDup (st_ids sb) -> nth_error (w_tgens w) (st_tgen s) = Some g -> delays g -> ~ In i (st_forced s) ->
  (forall st q, activity_in s i st q -> (0 < q)%Q) ->
  due_members sb <> [] ->
  st_ops sb = ops1 ++ OpReset a f :: ops2 ->
  (forall o, In o (ops1 ++ ops2) -> reschedules a o = false) ->
  run_chain ops1 (story_rows (st_field sb) (due_members sb)) (at_start b w) = (Ok (d1, l1), w1) ->
  names_row f d1 i ->
  exists n s', nth_error (w_stories w') a = Some s' /\ static s s' /\ remaining_of s' i = Some (Some (Z.of_nat n)).
Proof.
  intros H Nab Hs Hsb Nd Ndb Hg Hd Hf Hact Hdue Ho Hn Hc1 Hrow.
  assert (Hn1 : forall o, In o ops1 -> reschedules a o = false) by (intros; apply Hn, in_or_app; auto).
  assert (Hn2 : forall o, In o ops2 -> reschedules a o = false) by (intros; apply Hn, in_or_app; auto).
  rewrite (at_start_unforced _ _ _ Hsb) in Hc1.
  apply execute_ok in H. destruct H as (s0 & H0 & H). rewrite Hsb in H0. injection H0 as <-.
  destruct H as [(E & _)|(_ & dd & w2 & w3 & Hc & Hm & Ht)]; [tauto|].
  change (init_story_data (st_field sb) (due_members sb)) with (story_rows (st_field sb) (due_members sb)) in Hc.
  rewrite Ho in Hc. set (d0 := story_rows (st_field sb) (due_members sb)) in *.
  pose proof (chain_app ops1 (OpReset a f :: ops2) d0 (unforced b sb w)) as Ha. rewrite Hc1 in Ha.
  pose proof (chain_app [OpReset a f] ops2 d1 w1) as Hb.
  destruct (run_chain [OpReset a f] d1 w1) as [[[d2 l2]|e] w1'] eqn:E2.
  2:{ cbn [app] in Hb. rewrite Hb in Ha. rewrite Ha in Hc. discriminate. }
  destruct (run_chain ops2 d2 w1') as [[[d3 l3]|e] w1''] eqn:E3.
  2:{ cbn [app] in Hb. rewrite Hb in Ha. rewrite Ha in Hc. discriminate. }
  destruct Hb as (l4 & Hb & _). cbn [app] in Hb. rewrite Hb in Ha. destruct Ha as (l5 & Ha & _). rewrite Ha in Hc.
  injection Hc as -> -> ->.
  (* before the reset *)
  assert (Hs0 : nth_error (w_stories (unforced b sb w)) a = Some s).
  { unfold unforced. cbn [w_stories set_stories]. rewrite nth_put_other by auto. exact Hs. }
  pose proof (chain_rel (chain_timed a ops1 d0 (unforced b sb w) Hn1) _ _ Hc1) as [_ T1].
  destruct (T1 _ _ Hs0) as (s1 & Es1 & St1 & T1'). destruct (T1' eq_refl) as [F1 _].
  assert (G1 : tg_at delays (st_tgen s) w1).
  { pose proof (chain_tg delays delays_gen (st_tgen s) ops1 d0 (unforced b sb w)) as K. unfold tg_kept in K. rewrite Hc1 in K.
    apply K. exists g. split; [exact Hg|exact Hd]. }
  (* the reset *)
  assert (E4 : exists dr lr, run_op (OpReset a f) d1 w1 = (Ok (dr, lr), w1')).
  { unfold run_chain in E2. cbn [run_list] in E2. mstep E2. destruct x as [dr lr]. mstep E2. apply lift_ok in E0. destruct E0 as [_ ->].
    injection E2 as _ _ <-. eauto. }
  destruct E4 as (dr & lr & E4). destruct (reset_op_ids _ _ _ _ _ _ _ E4) as (ids & Er & Nids & Hids).
  assert (Nd1 : NoDup (df_index d1)).
  { pose proof (run_op_index (OpChain ops1) d0 (unforced b sb w) d1 l1 w1 Hc1) as Hi.
    unfold d0 in Hi. rewrite story_rows_index in Hi. apply Hi. now apply NoDup_due. }
  destruct St1 as (S1&S2&S3&S4&S5&S6&S7&S8&S9).
  destruct G1 as (g1 & Hg1 & Hd1).
  destruct (user_reset a (Some ids) w1 w1' s1 g1 i Er Es1) as (n & s2 & Es2 & St2 & R2); auto.
  { now rewrite S9. }
  { now rewrite S4. }
  { cbn. auto. }
  { now rewrite F1. }
  { unfold activity_in. rewrite S7. exact Hact. }
  (* after the reset *)
  pose proof (chain_rel (chain_timed a ops2 d2 w1' Hn2) _ _ E3) as [_ T3].
  destruct (T3 _ _ Es2) as (s3 & Es3 & St3 & T3'). destruct (T3' eq_refl) as [_ R3].
  assert (E5 : nth_error (w_stories w') a = Some s3).
  { assert (E5 : nth_error (w_stories w3) a = Some s3).
    { destruct (st_auto sb).
      - apply story_reset_ok in Hm. destruct Hm as (sx & sy & gx & gy & _ & _ & _ & ->).
        cbn [w_stories set_stories set_tgens]. rewrite nth_put_other by auto. exact Es3.
      - apply story_tick_ok in Hm. destruct Hm as (sx & sy & _ & _ & ->).
        cbn [w_stories set_stories]. rewrite nth_put_other by auto. exact Es3. }
    apply story_tick_ok in Ht. destruct Ht as (sx & sy & _ & _ & ->).
    cbn [w_stories set_stories]. rewrite nth_put_other by auto. exact E5. }
  exists n, s3. split; [exact E5|]. split.
  { eapply static_trans; [|exact St3]. eapply static_trans; [|exact St2]. unfold static. auto 10. }
  now rewrite R3.
Qed.

(** ** Auto-reset with a cyclic timer *)
Lemma auto_reset_bin a w l w' s y p start cstep k i :
  execute a w = (Ok l, w') -> nth_error (w_stories w) a = Some s -> NoDup (st_ids s) -> st_auto s = true ->
  (forall o, In o (st_ops s) -> reschedules a o = false) ->
  nth_error (w_tgens w) (st_tgen s) = Some (TCyclic y) -> live p start cstep k y ->
  (forall st q, activity_in s i st q -> (0 < q)%Q) -> remaining_of s i = Some (Some 0%Z) ->
  exists n s', nth_error (w_stories w') a = Some s' /\ static s s' /\
    remaining_of s' i = Some (Some (Z.of_nat n)) /\
    (1 <= n -> ((Z.of_nat n + 1) mod Z.of_nat (y_bins y) <> 0)%Z ->
     (0 < weight_at p (bin_start p start cstep (Z.of_nat k + Z.of_nat n + 1)))%Q).
Proof.
  intros H Hs Nd Ha Hn Hg Hl Hact Hr.
  destruct (exec_spec _ _ _ _ _ H Hs Nd Hn) as (s' & Es' & St' & _ & _ & _ & Hx).
  destruct Hx as (s1 & s2 & g & g' & St1 & F1 & R1 & Er & R2 & d1 & w1 & Hc & Hg1 & _).
  { intros E. apply (proj2 (due_iff s i Nd)) in Hr. rewrite E in Hr. destruct Hr. }
  { exact Ha. }
  assert (G1 : tg_at (cyclic_at p start cstep k (y_bins y)) (st_tgen s) w1).
  { pose proof (chain_tg _ (live_gen p start cstep k (y_bins y)) (st_tgen s) (st_ops s)
      (init_story_data (st_field s) (due_members s)) (unforced a s w)) as K. unfold tg_kept in K. rewrite Hc in K.
    apply K. exists (TCyclic y). split; [exact Hg|]. exists y. auto. }
  destruct G1 as (g0 & Eg0 & y1 & Hl1 & Hb1 & ->). assert (g = TCyclic y1) by congruence. subst g.
  destruct St1 as (S1&S2&S3&S4&S5&S6&S7&S8&S9).
  assert (Nd1 : NoDup (st_ids s1)) by (now rewrite S9).
  assert (Hdue : In i (due_members s)) by (now apply due_iff).
  destruct (reset_delay _ _ _ _ _ i Er Nd1 (NoDup_due _ Nd)) as (n & Hn').
  { right. exists p, start, cstep, k, y1. auto. }
  { exact Hdue. }
  { rewrite F1. intros []. }
  { unfold activity_in. rewrite S7. exact Hact. }
  exists n, s'. split; [exact Es'|]. split; [exact St'|]. split; [now rewrite R2|].
  intros H1 H2.
  destruct (reset_rows _ _ _ _ _ Er Nd1 (NoDup_due _ Nd)) as (act & cnt & Hk & Hgn & Hv & Hrr & _).
  assert (Hi : In i (reset_ids s1 (Some (due_members s)))) by (apply reset_addressed; rewrite F1; auto).
  destruct (Hrr i Hi) as (q & t & Hq & Ht & E). destruct (Hv i q Hq) as (st & _ & Hdec).
  apply declared_activity in Hdec. unfold activity_in in Hdec. rewrite S7 in Hdec. pose proof (Hact _ _ Hdec) as Hpos.
  assert (Hne : act <> []) by (intros ->; destruct Hq). specialize (Hgn Hne).
  destruct (Qeq_bool q 0) eqn:Eq; [apply Qeq_bool_iff in Eq; lra|].
  assert (t = Some (Z.of_nat n)) by congruence. subst t.
  cbn [tgen_generate] in Hgn. apply bind_ok in Hgn as ([ts y2] & Hgn & E2). injection E2 as -> _.
  eapply (generate_weight p start cstep k y1 act cnt y2 Hl1); [|exact Hgn|exact Ht|lia|now rewrite Hb1].
  rewrite Hk. unfold reset_ids. apply index_difference_NoDup, NoDup_due, Nd.
Qed.
