(** Holidays in the scenario of tests/scenarios/test_snd.py (C143). *)
From Verif Require Import Base BaseFacts Rng Utils Relationship RelationshipFacts SpecRelationship Frame Gens Clock SpecClock Attribute SpecAttribute AttributeFacts World Story Ops Helpers
  Fs Circus SpecStory StoryFacts StoryProps StoryWorld StoryWorld2 SpecOps SpecCircus SpecWorld WorldProps SpecPopulation GensKept PopProps SpecLocal CircusProps SpecSupply SpecFs SpecLedger SpecRecords RecordsGens RecordsProps RecordsMore
  SpecNow NowProps SpecSafe SafeRun Samples StorySamples PropStory PropCircus PropRecords PropOps PropSafe Cdr SpecCdr PropCdr SpecCdrLogs Snd SpecSnd SndBooks SndTruth PropSnd SelfForce SpecHolidays SndHolidays.

Lemma emits_distinct w hs L w' : emits w hs L w' -> distinct_members w -> distinct_members w'.
Proof.
  revert w L. induction hs as [|h hs IH]; intros w L H D; inversion H as [|y1 a l w1 y5 L' y7 Hx He|y1 y2 w1 y4 y5 y6 Hno Hh He]; subst; [exact D| |].
  - exact (IH w1 L' He (exec_distinct _ _ _ _ Hx D)).
  - apply (IH w1 L He). pose proof (happen_distinct h w D) as K. now rewrite Hh in K.
Qed.

(** ** C143.  An agent whose timer is negative never buys again, since nothing in the scenario resets the timers
    of purchases but a purchase. *)
Theorem C143_inactive_stay_out w c distributors dealers agents hs L w' agent r : snd_circus w c distributors dealers agents -> distinct_members w -> by_itself hs -> emits w hs L w' ->
  counter w purchases agent r -> match r with Some n => (n < 0)%Z | None => True end ->
  of_whom "AGENT" agent (records "purchases" L) = [] /\ counter w' purchases agent r.
Proof.
  intros F D U H C Hr. destruct (counter_story _ _ _ _ D C) as (s & Es & Nd & R).
  destruct (stay_out _ _ _ _ _ F hs w L w' s agent r (start_since _ _ _ _ _ F) D (start_stocked _ _ _ _ _ F) U H Es R) as (E & s' & Es' & St & R').
  { intros n ->. exact Hr. }
  split; [exact E|]. apply (counter_iff _ _ _ _ s'); auto. eapply static_nodup; eauto.
Qed.
Print Assumptions C143_inactive_stay_out.

(** The first successful purchase of an agent on holidays is therefore the last one they ever make. *)
Theorem C143_last_purchase w c distributors dealers agents past L1 w1 l w2 future L2 w3 agent : snd_circus w c distributors dealers agents -> distinct_members w ->
  emits w past L1 w1 -> sound_states w1 purchases -> auto_reset w1 purchases true -> fair_judge w1 -> acts_now w1 purchases agent -> on_holidays w1 agent ->
  execute purchases w1 = (Ok l, w2) -> (forall r, In r (records "purchases" l) -> r "AGENT"%string = agent -> r "FAILED_SALE"%string <> VBool true) ->
  by_itself future -> emits w2 future L2 w3 -> of_whom "AGENT" agent (records "purchases" L2) = [].
Proof.
  intros F D H1 So Ea Fj A Hol Hx Nf U H2.
  destruct (booked_history _ _ _ _ _ F past w L1 w1 (start_since _ _ _ _ _ F) (start_stocked _ _ _ _ _ F) H1) as [S1 B1]. pose proof (bk_stocked _ _ _ _ B1) as St1.
  pose proof (emits_distinct _ _ _ _ H1 D) as D1.
  destruct (holiday_exec _ _ _ _ _ F w1 l w2 agent S1 D1 So Ea Fj Hx A Hol Nf) as (s2 & Es2 & R2).
  refine (proj1 (stay_out _ _ _ _ _ F future w2 L2 w3 s2 agent (Some (-1)%Z) (exec_since w _ _ _ _ S1 Hx) (exec_distinct _ _ _ _ Hx D1) (bk_stocked _ _ _ _ (booked_exec w c distributors dealers agents F purchases w1 l w2 S1 St1 Hx)) U H2 Es2 R2 _)).
  intros n [= <-]. lia.
Qed.
Print Assumptions C143_last_purchase.

(** The sample of C141, after six hours: B is on holidays. *)
Definition after_hours (n : Z) : world := fst (fst (snd (run (n * hour) logs_folder false snd_sample disk))).
Definition holiday_ok (w : world) (i : val) : bool :=
  match nth_error (w_stories w) purchases with
  | Some s => forallb (fun x => negb (val_eqb (fst x) i) || forallb (fun y => negb (String.eqb (fst y) "on_holiday") || (Qeq_bool (fst (snd y)) 0 && Qle_bool (snd (snd y)) 0)) (snd x)) (st_params s)
  | None => false
  end.
Lemma holiday_check w i r : shows w purchases i ("on_holiday"%string, r) = true -> holiday_ok w i = true -> on_holidays w i.
Proof.
  intros S H. split; [exact (shows_state _ _ _ _ _ S)|]. intros s Es. unfold holiday_ok in H. rewrite Es in H. rewrite forallb_forall in H.
  assert (K : forall states ab, In (i, states) (st_params s) -> In ("on_holiday"%string, ab) states -> (fst ab == 0)%Q /\ (snd ab <= 0)%Q).
  { intros states ab H1 H2. specialize (H _ H1). cbn [fst snd] in H. rewrite (proj2 (val_eqb_eq i i) eq_refl) in H. cbn [negb orb] in H. rewrite forallb_forall in H. specialize (H _ H2).
    cbn [fst snd] in H. rewrite String.eqb_refl in H. cbn [negb orb] in H. apply andb_true_iff in H as [Ha Hb]. split; [now apply Qeq_bool_iff|now apply Qle_bool_iff]. }
  split; intros q (states & ab & H1 & H2 & ->); now destruct (K states ab H1 H2).
Qed.
Definition judge_ok (w : world) : bool :=
  match nth_error (w_stories w) purchases with
  | Some s => forallb (fun o => match o with OpBack _ j => match nth_error (w_gens w) j with Some (GNumpy NpUniform _ None) => true | _ => false end | _ => true end) (st_ops s)
  | None => true
  end.
Lemma judge_check w : judge_ok w = true -> fair_judge w.
Proof.
  intros H s j Es Hin. unfold judge_ok in H. rewrite Es in H. rewrite forallb_forall in H. specialize (H _ Hin). cbn in H.
  destruct (nth_error (w_gens w) j) as [[| |m st [b|]| | | | | |]|] eqn:E; try discriminate; destruct m; try discriminate. exists st. exact E.
Qed.

Lemma run_ok_emits w fs duration : startable fs logs_folder false -> (0 < Clock.c_step (w_clock w))%Z -> fst (run duration logs_folder false w fs) = Ok tt ->
  exists n L, emits w (steps_of (length (w_stories w)) n) L (fst (fst (snd (run duration logs_folder false w fs)))).
Proof.
  intros St Hc R. destruct (run duration logs_folder false w fs) as [r [[w' fs'] tr]] eqn:E. cbn [fst] in R. subst r. destruct (run_recorded _ _ _ _ _ _ _ _ E St Hc) as (n & L & _ & He & _). cbn [fst snd]. eauto.
Qed.

(** B acts although on holidays, and succeeds.  So agents on holidays may well buy: what is changed when they
    leave is their state, not their timer. *)
Definition bought (l : logs) (agent : val) : bool :=
  existsb (fun r : record => val_eqb (r "AGENT"%string) agent && val_eqb (r "FAILED_SALE"%string) (VBool false)) (records "purchases" l) &&
  forallb (fun r : record => negb (val_eqb (r "AGENT"%string) agent) || negb (val_eqb (r "FAILED_SALE"%string) (VBool true))) (records "purchases" l).
Lemma bought_check l agent : bought l agent = true -> (exists r : record, In r (records "purchases" l) /\ r "AGENT"%string = agent /\ r "FAILED_SALE"%string = VBool false) /\
  forall r : record, In r (records "purchases" l) -> r "AGENT"%string = agent -> r "FAILED_SALE"%string <> VBool true.
Proof.
  unfold bought. intros H. apply andb_true_iff in H as [H1 H2]. split.
  - apply existsb_exists in H1 as (r & Hr & K). apply andb_true_iff in K as [K1 K2]. apply val_eqb_eq in K1. apply val_eqb_eq in K2. eauto.
  - rewrite forallb_forall in H2. intros r Hr E K. specialize (H2 r Hr). rewrite E, K in H2. rewrite (proj2 (val_eqb_eq agent agent) eq_refl) in H2. discriminate.
Qed.
Lemma sample_emits n : fst (run (n * hour) logs_folder false snd_sample disk) = Ok tt -> exists hs L, emits snd_sample hs L (after_hours n).
Proof.
  intros R. destruct (run_ok_emits snd_sample disk (n * hour) logging_startable) as (k & L & H); [vm_compute; reflexivity|exact R|]. exists (steps_of (length (w_stories snd_sample)) k), L. exact H.
Qed.
Example C143_example : snd_circus snd_sample shops distro_names dealer_names agent_names /\ distinct_members snd_sample /\
  exists past L1 w1 l w2, emits snd_sample past L1 w1 /\ sound_states w1 purchases /\ auto_reset w1 purchases true /\ fair_judge w1 /\ acts_now w1 purchases (s_ "B") /\ on_holidays w1 (s_ "B") /\
    execute purchases w1 = (Ok l, w2) /\ (forall r : record, In r (records "purchases" l) -> r "AGENT"%string = s_ "B" -> r "FAILED_SALE"%string <> VBool true) /\
    exists r : record, In r (records "purchases" l) /\ r "AGENT"%string = s_ "B" /\ r "FAILED_SALE"%string = VBool false.
Proof.
  split; [exact snd_sample_shape|]. split; [exact (C12_members_distinct _ _ snd_sample_built)|].
  assert (R : fst (run (6 * hour) logs_folder false snd_sample disk) = Ok tt) by (vm_compute; reflexivity). destruct (sample_emits 6 R) as (hs & L & He). clear R.
  assert (C1 : states_ok (after_hours 6) purchases = true) by (vm_compute; reflexivity). apply states_by_check in C1.
  assert (C2 : option_map st_auto (nth_error (w_stories (after_hours 6)) purchases) = Some true) by (vm_compute; reflexivity).
  assert (C3 : judge_ok (after_hours 6) = true) by (vm_compute; reflexivity). apply judge_check in C3.
  assert (C4 : shows (after_hours 6) purchases (s_ "B") ("on_holiday"%string, Some 0%Z) = true) by (vm_compute; reflexivity).
  assert (C5 : holiday_ok (after_hours 6) (s_ "B") = true) by (vm_compute; reflexivity).
  assert (C6 : is_ok (fst (execute purchases (after_hours 6))) = true) by (vm_compute; reflexivity). apply (ran []) in C6.
  assert (C7 : bought (ok_or [] (fst (execute purchases (after_hours 6)))) (s_ "B") = true) by (vm_compute; reflexivity). apply bought_check in C7 as [C7 C8].
  assert (D : distinct_members (after_hours 6)). exact (emits_distinct _ _ _ _ He (C12_members_distinct _ _ snd_sample_built)).
  revert He C1 C2 C3 C4 C5 C6 C7 C8 D. generalize (after_hours 6). intros w1 He C1 C2 C3 C4 C5 C6 C7 C8 D.
  exists hs, L, w1, (ok_or [] (fst (execute purchases w1))), (snd (execute purchases w1)).
  split; [exact He|]. split; [exact C1|]. split; [clear -C2; unfold auto_reset; revert C2; destruct (nth_error (w_stories w1) purchases) as [s|]; [|discriminate]; intros C2; exists s; split; [reflexivity|exact (f_equal (fun x => match x with Some b => b | None => true end) C2)]|].
  split; [exact C3|]. split; [|split; [exact (holiday_check _ _ _ C4 C5)|split; [exact C6|split; [exact C8|exact C7]]]].
  apply shows_in in C4 as (s & Es & Hin). apply (acts_now_iff _ _ _ s Es (D _ _ Es)). unfold remaining_of. rewrite (In_dget _ _ _ (D _ _ Es) Hin). reflexivity.
Qed.
Theorem C143_no_purchase_on_holidays_refuted : exists w c distributors dealers agents past L1 w1 l w2 agent, built stream w /\ snd_circus w c distributors dealers agents /\
  emits w past L1 w1 /\ on_holidays w1 agent /\ execute purchases w1 = (Ok l, w2) /\
  exists r : record, In r (records "purchases" l) /\ r "AGENT"%string = agent /\ r "FAILED_SALE"%string = VBool false.
Proof.
  destruct C143_example as (H1 & H2 & past & L1 & w1 & l & w2 & E & _ & _ & _ & _ & Hol & Hx & _ & Hr).
  exists snd_sample, shops, distro_names, dealer_names, agent_names, past, L1, w1, l, w2, (s_ "B"). split; [exact snd_sample_built|]. auto.
Qed.
Print Assumptions C143_no_purchase_on_holidays_refuted.

(** An hour later B is back, with an activity that is not 0; but they never buy again. *)
Definition back_again : world := fst (fst (snd (run (1 * hour) logs_folder false (after_hours 6) disk))).
Definition lively (w : world) (i : val) : bool :=
  match nth_error (w_stories w) purchases with
  | Some s => match dget i (st_params s) with Some states => match dget "default"%string states with Some (q, _) => Qeq_bool q 1 | None => false end | None => false end
  | None => false
  end.
Lemma gone_for_good past L1 w1 hs L2 w2 agent : emits snd_sample past L1 w1 -> emits w1 hs L2 w2 -> shows w2 purchases agent ("default"%string, Some (-1)%Z) = true ->
  forall future L3 w3, by_itself future -> emits w2 future L3 w3 -> of_whom "AGENT" agent (records "purchases" L3) = [].
Proof.
  intros H1 H2 C3 future L3 w3 U H3. pose proof (start_since _ _ _ _ _ snd_sample_shape) as S0. pose proof (start_stocked _ _ _ _ _ snd_sample_shape) as St0.
  destruct (booked_history _ _ _ _ _ snd_sample_shape past snd_sample L1 w1 S0 St0 H1) as [S1 B1]. destruct (booked_history _ _ _ _ _ snd_sample_shape _ w1 L2 w2 S1 (bk_stocked _ _ _ _ B1) H2) as [S2 B2].
  pose proof (emits_distinct _ _ _ _ H2 (emits_distinct _ _ _ _ H1 (C12_members_distinct _ _ snd_sample_built))) as D2.
  destruct (counter_story _ _ _ _ D2 (shows_counter _ _ _ _ _ C3)) as (s & Es & _ & R).
  refine (proj1 (stay_out _ _ _ _ _ snd_sample_shape future w2 L3 w3 s agent (Some (-1)%Z) S2 D2 (bk_stocked _ _ _ _ B2) U H3 Es R _)). intros n [= <-]. lia.
Qed.
Lemma lively_active w i : lively w i = true -> exists s q, nth_error (w_stories w) purchases = Some s /\ activity_in s i "default" q /\ (q == 1)%Q.
Proof.
  unfold lively. intros C4. destruct (nth_error (w_stories w) purchases) as [s|]; [|discriminate]. destruct (dget i (st_params s)) as [states|] eqn:E1; [|discriminate].
  destruct (dget "default"%string states) as [[q b]|] eqn:E2; [|discriminate]. exists s, q. split; [reflexivity|]. split; [|now apply Qeq_bool_iff]. exists states, (q, b). split; [now apply dget_In|]. split; [now apply dget_In|reflexivity].
Qed.
Lemma sample_back : (0 < Clock.c_step (w_clock (after_hours 6)))%Z -> fst (run (1 * hour) logs_folder false (after_hours 6) disk) = Ok tt -> exists hs L, emits (after_hours 6) hs L back_again.
Proof.
  unfold back_again. generalize (after_hours 6). intros w1 Pos R. destruct (run_ok_emits w1 disk (1 * hour) logging_startable Pos R) as (k & L & H). eauto.
Qed.
Theorem C143_buys_again_refuted : exists w c distributors dealers agents past L1 w1 hs L2 w2 agent, built stream w /\ snd_circus w c distributors dealers agents /\
  emits w past L1 w1 /\ on_holidays w1 agent /\ emits w1 hs L2 w2 /\ in_state w2 purchases agent "default" /\
  (exists s q, nth_error (w_stories w2) purchases = Some s /\ activity_in s agent "default" q /\ (q == 1)%Q) /\
  forall future L3 w3, by_itself future -> emits w2 future L3 w3 -> of_whom "AGENT" agent (records "purchases" L3) = [].
Proof.
  exists snd_sample, shops, distro_names, dealer_names, agent_names.
  assert (R : fst (run (6 * hour) logs_folder false snd_sample disk) = Ok tt) by (vm_compute; reflexivity). destruct (sample_emits 6 R) as (past & L1 & H1). clear R.
  assert (C1 : shows (after_hours 6) purchases (s_ "B") ("on_holiday"%string, Some 0%Z) = true) by (vm_compute; reflexivity).
  assert (C2 : holiday_ok (after_hours 6) (s_ "B") = true) by (vm_compute; reflexivity).
  assert (Pos : (0 <? Clock.c_step (w_clock (after_hours 6)))%Z = true) by (vm_compute; reflexivity). apply Z.ltb_lt in Pos.
  assert (R : fst (run (1 * hour) logs_folder false (after_hours 6) disk) = Ok tt) by (vm_compute; reflexivity).
  destruct (sample_back Pos R) as (hs & L2 & H2). clear R Pos.
  assert (C3 : shows back_again purchases (s_ "B") ("default"%string, Some (-1)%Z) = true) by (vm_compute; reflexivity).
  assert (C4 : lively back_again (s_ "B") = true) by (vm_compute; reflexivity).
  revert H1 C1 C2 H2 C3 C4. generalize (after_hours 6) back_again. intros w1 w2 H1 C1 C2 H2 C3 C4.
  exists past, L1, w1, hs, L2, w2, (s_ "B").
  exact (conj snd_sample_built (conj snd_sample_shape (conj H1 (conj (holiday_check _ _ _ C1 C2) (conj H2 (conj (shows_state _ _ _ _ _ C3) (conj (lively_active _ _ C4) (gone_for_good _ _ _ _ _ _ _ H1 H2 C3)))))))).
Qed.
Print Assumptions C143_buys_again_refuted.
