(** Holidays in tests/scenarios/test_snd.py (C143). *)
From Verif Require Import Base BaseFacts Rng Utils UtilsFacts Relationship RelationshipFacts SpecRelationship Frame Gens Clock SpecClock Attribute SpecAttribute AttributeFacts World Story Ops OpsFacts Helpers
  Circus SpecStory StoryFacts StoryExec StoryProps StoryWorld StoryWorld2 StoryStates SpecOps OpsProps OpsColumns OpsMore SpecCircus SpecPopulation SpecLocal LocalFacts SpecSupply SpecLedger LedgerProps SpecRecords RecordsProps SpecNow NowProps SpecJournal
  RowsProps SpecSafe SafeOps SafeRun GeographyLog Geography Cdr SpecCdr CdrFacts SpecCdrLogs CdrLogs CdrBooks OpRows Snd SpecSnd WorldProps CdrProps SupplyFacts SndBooks SndTruth SupplyProps SelfForce SpecHolidays.

Lemma reset_free a ops : existsb (reschedules a) ops = false -> forall o, In o ops -> reschedules a o = false.
Proof. intros H o Ho. destruct (reschedules a o) eqn:E; [|reflexivity]. assert (K : existsb (reschedules a) ops = true) by (apply existsb_exists; eauto). congruence. Qed.

Section Holidays.
  Context (w0 : world) (c : snd_names) (distributors dealers agents : list val).
  Hypothesis F : snd_circus w0 c distributors dealers agents.

  Definition looking : list op := buying c ++ [taking c; OpApply ["SOLD_SIM"%string] ["FAILED_SALE"%string] (series_f isnull)].
  Definition recording judge : list op := OpFieldLogger "purchases" [] [] :: keeping c judge.

  Lemma purchases_ops w s : since w0 w -> nth_error (w_stories w) purchases = Some s -> st_field s = "AGENT"%string /\
    exists judge, st_ops s = looking ++ OpForce purchases "AGENT" (Some "FAILED_SALE"%string) :: recording judge /\ forall o, In o (looking ++ recording judge) -> reschedules purchases o = false.
  Proof.
    intros S Es. destruct (story_now w0 c distributors dealers agents F purchases s w S Es) as [Hf (judge & Eo)]. split.
    - cbn in Hf. destruct Hf as [K|[K|[K|[K|[K|[K|[]]]]]]]; injection K as K; try discriminate; congruence.
    - exists judge. split; [exact Eo|]. apply reset_free. reflexivity.
  Qed.
  Lemma looking_rows w s d1 l1 w1 : since w0 w -> nth_error (w_stories w) purchases = Some s -> st_field s = "AGENT"%string ->
    run_chain looking (story_rows (st_field s) (due_members s)) (at_start purchases w) = (Ok (d1, l1), w1) ->
    forall row, In row (df_rows d1) -> In (cell (df_cols d1) (snd row) "AGENT") (due_members s).
  Proof.
    intros S Es Ef H. rewrite (StoryMore.at_start_unforced _ _ _ Es) in H. unfold run_chain in H.
    assert (Hd0 : data_after w s [] [st_field s] (init_story_data (st_field s) (due_members s))).
    { split; [reflexivity|]. split; [now left|]. split; [apply init_rect|]. split; [constructor|]. intros row Hin. split; [intros e o' lt E; destruct e; discriminate|].
      cbn [init_story_data df_rows] in Hin. apply in_map_iff in Hin as (i & <- & Hi). unfold row_of. cbn [snd df_cols init_story_data]. cbn [cell]. now rewrite String.eqb_refl. }
    assert (Hh0 : held_after w [] (unforced purchases s w)).
    { apply unforced_held; [|exact Es]. apply held_start. exact (sc_reach _ _ S). }
    assert (B : builds_up [st_field s] looking purchase_columns).
    { rewrite Ef. unfold looking, buying, taking, purchase_columns. cbn [app]. build_snd ["DATETIME"]%string. build_snd ["DEALER"]%string. build_snd ["SOLD_SIM"]%string. build_snd ["FAILED_SALE"]%string. apply built_up. }
    destruct (rows_now w s _ _ _ B [] _ _ (unforced purchases s w) _ _ _ Hd0 Hh0 eq_refl H) as ((_ & _ & _ & _ & Hrow) & _).
    intros row Hin. destruct (Hrow row Hin) as [_ K]. rewrite Ef in K. exact K.
  Qed.

  (** ** Nobody else reschedules purchases *)
  Lemma others_leave b s w : since w0 w -> nth_error (w_stories w) b = Some s -> b <> purchases -> forall o, In o (st_ops s) -> reschedules purchases o = false.
  Proof.
    intros S Es N. destruct (story_now w0 c distributors dealers agents F b s w S Es) as [_ (judge & ->)]. apply reset_free.
    destruct b as [|[|[|[|[|[|b]]]]]]; try reflexivity; [now destruct N|]. rewrite existsb_app. cbn [nth existsb reschedules]. now destruct b.
  Qed.
  Lemma counter_exec a w l w' s i r : since w0 w -> distinct_members w -> execute a w = (Ok l, w') -> nth_error (w_stories w) purchases = Some s ->
    remaining_of s i = Some r -> (forall n, r = Some n -> (n < 0)%Z) -> exists s', nth_error (w_stories w') purchases = Some s' /\ static s s' /\ remaining_of s' i = Some r.
  Proof.
    intros S D H Es Hr Hn. destruct (Nat.eq_dec a purchases) as [->|N].
    - destruct (purchases_ops w s S Es) as [Ef (judge & Eo & Ho)].
      destruct (self_forced purchases w l w' s looking "AGENT" (Some "FAILED_SALE"%string) (recording judge) H Es (D _ _ Es) Eo Ho) as (s' & Es' & St & K & _).
      { intros d1 l1 w1 R. exact (looking_rows w s d1 l1 w1 S Es Ef R). }
      exists s'. split; [exact Es'|]. split; [exact St|]. rewrite (K i r Hr).
      + f_equal. destruct r as [n|]; [|reflexivity]. specialize (Hn n eq_refl). cbn. replace (0 <=? n)%Z with false; [reflexivity|]. symmetry. apply Z.leb_gt. exact Hn.
      + intros ->. specialize (Hn 0%Z eq_refl). lia.
    - destruct (exec_other (timed_same purchases) purchases a w l w' s (timed_same_refl purchases) (timed_same_trans purchases)) as (s' & Es' & St & K); auto.
      { intros sb w1 Eb. apply chain_timed. exact (others_leave a sb w S Eb N). }
      exists s'. split; [exact Es'|]. split; [exact St|]. destruct (K eq_refl) as [_ ->]. exact Hr.
  Qed.

  Lemma other_timed h w w' s : (forall a, h <> HExec a) -> match h with HForce b _ | HReset b _ | HTick b _ => b <> purchases | _ => True end -> happen h w = (Ok tt, w') ->
    nth_error (w_stories w) purchases = Some s -> exists s', nth_error (w_stories w') purchases = Some s' /\ timed_same purchases purchases s s'.
  Proof.
    intros Hno Hp H Es. assert (E : w' = snd (happen h w)) by now rewrite H. subst w'. clear H. revert s Es. fold (at_story (timed_same purchases purchases) purchases w (snd (happen h w))).
    pose proof (timed_same_refl purchases purchases) as Rf. pose proof (timed_same_trans purchases purchases) as Tr. destruct h as [b| |b ids|b ids|b ids states|b ids].
    - now destruct (Hno b).
    - intros s E. exists s. split; [|apply Rf]. cbn [happen snd]. now rewrite increment_stories.
    - apply at_force; auto.
    - apply at_reset; auto.
    - apply (stories_rel_at (timed_same purchases)).
      apply (sr_transit _ (fun _ => True)); auto using timed_same_refl; [apply timed_same_trans|].
      intros x s ids' st s' _ E. destruct (transit_spec _ _ _ _ E) as (_ & _ & S & Fo & _).
      split; [exact S|]. intros _. split; [exact Fo|]. intros i. eapply transit_remaining; eauto.
    - apply at_tick; auto.
  Qed.

  Lemma stay_out hs : forall w L w' s i r, since w0 w -> distinct_members w -> stocked c w -> by_itself hs -> emits w hs L w' -> nth_error (w_stories w) purchases = Some s ->
    remaining_of s i = Some r -> (forall n, r = Some n -> (n < 0)%Z) ->
    of_whom "AGENT" i (records "purchases" L) = [] /\ exists s', nth_error (w_stories w') purchases = Some s' /\ static s s' /\ remaining_of s' i = Some r.
  Proof.
    induction hs as [|h hs IH]; intros w L w' s i r S D St U H Es Hr Hn.
    - inversion H; subst. split; [reflexivity|]. exists s. split; [exact Es|]. split; [apply static_refl|exact Hr].
    - assert (U' : by_itself hs) by (intros h' K; apply U; now right).
      inversion H as [|y1 a l w1 y5 L' y7 Hx He|y1 y2 w1 y4 y5 y6 Hno Hh He]; subst.
      + destruct (counter_exec a w l w1 s i r S D Hx Es Hr Hn) as (s1 & Es1 & St1 & R1).
        destruct (IH w1 L' w' s1 i r (exec_since w0 _ _ _ _ S Hx) (exec_distinct _ _ _ _ Hx D) (bk_stocked _ _ _ _ (booked_exec w0 c distributors dealers agents F a w l w1 S St Hx)) U' He Es1 R1 Hn) as (E & s' & Es' & St' & R').
        split; [|exists s'; split; [exact Es'|]; split; [exact (static_trans _ _ _ St1 St')|exact R']].
        rewrite records_app. unfold of_whom in *. rewrite filter_app, E, app_nil_r.
        pose proof (purchases_true w0 c distributors dealers agents F a w l w1 S St Hx) as T. induction T as [|x xs (A & _) _ IHx]; [reflexivity|]. cbn [filter].
        destruct (val_eqb (x "AGENT"%string) i) eqn:Ex; [|exact IHx]. apply val_eqb_eq in Ex. rewrite Ex in A. exfalso. apply (acts_now_iff _ _ _ s Es (D _ _ Es)) in A. rewrite Hr in A. injection A as A. specialize (Hn _ A). lia.
      + destruct (other_timed h w w1 s Hno (U h (or_introl eq_refl)) Hh Es) as (s1 & Es1 & St1 & R1). destruct (R1 eq_refl) as [_ R1'].
        assert (D1 : distinct_members w1) by (pose proof (happen_distinct h w D) as K; now rewrite Hh in K).
        assert (Sk : stocked c w1).
        { pose proof (other_fields h w w1 Hno Hh) as (_ & _ & Er & _). intros x Hx. unfold pairs_of. rewrite Er. exact (St x Hx). }
        rewrite <- R1' in Hr. destruct (IH w1 L w' s1 i r (other_since w0 _ _ _ Hno Hh S) D1 Sk U' He Es1 Hr Hn) as (E & s' & Es' & St' & R').
        split; [exact E|]. exists s'. split; [exact Es'|]. split; [exact (static_trans _ _ _ St1 St')|exact R'].
  Qed.

  (** ** The purchase an agent makes on holidays is their last *)
  Lemma failed_told w l w' s d1 l1 w1 row : since w0 w -> execute purchases w = (Ok l, w') -> nth_error (w_stories w) purchases = Some s ->
    run_chain looking (story_rows (st_field s) (due_members s)) (at_start purchases w) = (Ok (d1, l1), w1) -> In row (df_rows d1) ->
    exists r, In r (records "purchases" l) /\ r "AGENT"%string = cell (df_cols d1) (snd row) "AGENT" /\ r "FAILED_SALE"%string = cell (df_cols d1) (snd row) "FAILED_SALE".
  Proof.
    intros S H Es R Hin. rewrite (StoryMore.at_start_unforced _ _ _ Es) in R. unfold run_chain in R. change (story_rows (st_field s) (due_members s)) with (init_story_data (st_field s) (due_members s)) in R.
    destruct (snd_story_purchases _ _ _ _ _ F) as (s0 & Es0 & Ef & _ & judge & Eo).
    unshelve epose proof (exec_parts w0 purchases s0 (OpForce purchases "AGENT" (Some "FAILED_SALE"%string)) "purchases" [] looking [] (keeping c judge) purchase_columns [] purchase_columns Es0 _ _ _ _ _ _ _ w l w' S H) as (s' & Es' & Efs & K).
    - exact Eo.
    - rewrite Ef. unfold looking, buying, taking, purchase_columns. cbn [app]. build_snd ["DATETIME"]%string. build_snd ["DEALER"]%string. build_snd ["SOLD_SIM"]%string. build_snd ["FAILED_SALE"]%string. apply built_up.
    - unfold purchase_columns. build_snd (@nil string). apply built_up.
    - rewrite app_nil_r. constructor.
    - split; [reflexivity|]. split; [constructor|]. intros n [].
    - now left.
    - apply Forall_forall. apply forallb_forall. reflexivity.
    - assert (s' = s) by congruence. subst s'. destruct K as [(_ & _ & _ & Ed)|(e1 & e2 & e3 & e5 & v1 & v2 & v3 & v5 & [(k1 & R1) (k2 & R2) (k3 & k3' & R3) _ _ _ _ _ _ _ _ Sh])].
      { exfalso. pose proof (looking_rows w s d1 l1 w1 S Es) as X. assert (Y : st_field s = "AGENT"%string) by congruence. specialize (X Y). rewrite (StoryMore.at_start_unforced _ _ _ Es), Ed in X. rewrite Ed in R. exact (X R row Hin). }
      rewrite R in R1. injection R1 as <- <- <-. cbn [run_list] in R3. injection R3 as <- _ _.
      cbn [run_op] in R2. apply bindM_ok in R2 as (u & v & _ & R2). injection R2 as <- _ _.
      clear -Sh Hin. revert Hin Sh. generalize (records "purchases" l). induction (df_rows d1) as [|r0 rows IH]; intros rs Hin Sh; [destruct Hin|]. inversion Sh as [|x y xs ys S1 S2]; subst.
      destruct Hin as [->|Hin].
      + exists y. split; [now left|]. split; apply S1; cbn; tauto.
      + destruct (IH ys Hin S2) as (r & Hr & K). exists r. split; [now right|exact K].
  Qed.

  Lemma holiday_exec w l w' i : since w0 w -> distinct_members w -> sound_states w purchases -> auto_reset w purchases true -> fair_judge w ->
    execute purchases w = (Ok l, w') -> acts_now w purchases i -> on_holidays w i ->
    (forall r, In r (records "purchases" l) -> r "AGENT"%string = i -> r "FAILED_SALE"%string <> VBool true) ->
    exists s', nth_error (w_stories w') purchases = Some s' /\ remaining_of s' i = Some (Some (-1)%Z).
  Proof.
    intros S D So (s0 & Es & Ea) Fj H A [Hol Hq] Nf. destruct (purchases_ops w s0 S Es) as [Ef (judge & Eo & Ho)]. pose proof (D _ _ Es) as Nd. change (map fst (st_timer s0)) with (st_ids s0) in Nd.
    destruct (self_forced purchases w l w' s0 looking "AGENT" (Some "FAILED_SALE"%string) (recording judge) H Es Nd Eo Ho) as (s' & Es' & St & _ & K).
    { intros d1 l1 w1 R. exact (looking_rows w s0 d1 l1 w1 S Es Ef R). }
    exists s'. split; [exact Es'|]. apply (acts_now_iff _ _ _ s0 Es Nd) in A. destruct (K Ea i A) as [(d1 & l1 & w1 & row & R & Hin & E1 & E2)|(st & q & t & K1 & K2 & K3)].
    { exfalso. destruct (failed_told w l w' s0 d1 l1 w1 row S H Es R Hin) as (r & Hr & X1 & X2). apply (Nf r Hr); congruence. }
    assert (Eo' : st_ops s0 = (looking ++ OpForce purchases "AGENT" (Some "FAILED_SALE"%string) :: [OpFieldLogger "purchases" [] []; OpDropRow "FAILED_SALE"; OpRelAdd (n_agent_sims c) "AGENT" "SOLD_SIM"]) ++ [OpBack purchases judge]) by (rewrite Eo, <- app_assoc; reflexivity).
    assert (J : uniform_generator w judge) by (apply (Fj s0 judge Es); rewrite Eo'; apply in_or_app; right; now left).
    destruct (w_back purchases w l w' s0 _ judge H D So Es Eo') as (survivors & _ & _ & B1 & _ & B2); [|exact J|].
    { intros o Hin. unfold looking, buying in Hin. cbn [app In] in Hin. repeat (destruct Hin as [<-|Hin]; [reflexivity|]). destruct Hin. }
    destruct (Hq s0 Es) as [Hact Hback].
    assert (I' : in_state w' purchases i "on_holiday").
    { destruct (in_dec key_dec i survivors) as [Hi|Hi]; [|now apply B1]. destruct (B2 i "on_holiday"%string Hi Hol ltac:(discriminate)) as (_ & _ & B3). exact (B3 Hback). }
    assert (Nd' : NoDup (st_ids s')) by (eapply static_nodup; eauto). apply (in_state_iff _ _ _ _ s' Es' Nd') in I'.
    pose proof St as (_ & _ & _ & _ & _ & Est & Ep & _ & _). destruct (So s0 Es) as [Hdef Hall].
    assert (Hin : In "on_holiday"%string (st_states s0)). { destruct Hol as (s2 & r & E2 & Hii). assert (s2 = s0) by congruence. subst s2. exact (Hall _ _ _ Hii). }
    assert (st = "on_holiday"%string) by (apply (effective_current s' i "on_holiday"); [now rewrite Est|exact I'|now rewrite Est|exact K1]). subst st. rewrite K3. rewrite (same_declared s0 s' _ _ _ St) in K2. apply declared_activity in K2. apply Hact in K2. apply Qeq_bool_iff in K2. now rewrite K2.
  Qed.
End Holidays.
