(** Holidays in the constructed scenario of tests/scenarios/test_snd.py (C158). *)
From Verif Require Import Base BaseFacts Rng RngFacts Utils Relationship SpecRelationship Frame Gens GensProps Clock SpecClock ClockProps Attribute SpecAttribute World Story Ops Circus Fs
  SpecStory SpecOps SpecWorld SpecPopulation SpecCircus SpecLocal SpecSupply SpecFs SpecLedger SpecRecords SpecSafe SafeOps SafeRun Geography SpecNumbers CdrSetup SpecCdrSetup SpecCdrLogs SpecCdrMoves Samples StorySamples PropCircus
  PropCdrSetup CircusFacts GensKept RecordsProps NowProps RecordsMore Snd SpecSnd SpecSndReady SndSafe SndTruth SpecHolidays SndHolidays PropHolidays SndRestock SndSetup SpecSndSetup SndBooks SndReady PropSndSafe PropSndBuild PropSndFiles.
Local Open Scope nat_scope.

Lemma emits_same w hs L w' : emits w hs L w' -> forall w'', history w hs w'' -> w'' = w'.
Proof. intros H w'' H'. exact (history_det _ _ _ H' _ (emits_history _ _ _ _ H)). Qed.

(** ** C158.  In the scenario as constructed, after any history: the first sale to an agent who acts while on holidays
    is the last one ever recorded for them, whatever happens next (nobody calling force_act_next, reset_timers or
    timer_tick of the purchases story by hand). *)
Theorem C158_last_purchase x params g seed start step c w past L1 w1 l w2 future L2 w3 agent :
  sane_snd_sources x -> (second <= step)%Z -> build_snd x params (new_circus g seed start step) = (Ok c, w) ->
  Forall (sensible w) past -> emits w past L1 w1 -> acts_now w1 purchases agent -> in_state w1 purchases agent "on_holiday" ->
  execute purchases w1 = (Ok l, w2) -> (forall r, In r (records "purchases" l) -> r "AGENT"%string = agent -> r "FAILED_SALE"%string <> VBool true) ->
  by_itself future -> emits w2 future L2 w3 -> of_whom "AGENT" agent (records "purchases" L2) = [].
Proof.
  intros S Hs B Sp H1 A Hol Hx Nf U H2. destruct (built_snd _ _ _ _ _ _ _ _ S B) as ((ds & de & ag & C & T & R & _) & Ed & Est). rewrite Est in R. specialize (R Hs).
  destruct (chain_holidays _ _ _ _ _ _ T) as (Ea & Fj & Z).
  assert (D : distinct_members w). { intros a s Es. exact (proj1 (ready_timers _ _ _ _ _ R a s Es)). }
  destruct (snd_well_formed _ _ _ _ _ C R) as [kinds Wf].
  destruct (history_runs _ _ Wf past Sp w (fine_start _ _ Wf)) as (w1' & Hh & Fi). rewrite (emits_same _ _ _ _ H1 _ Hh) in Fi. clear w1' Hh.
  pose proof (sc_gens _ _ (fi_since _ _ _ Fi)) as K. destruct (emits_static _ _ _ _ H1) as [Ln St].
  destruct Ea as (s & Es & Ea). destruct (St _ _ Es) as (s1 & Es1 & Ss).
  pose proof Ss as (S1&S2&S3&S4&S5&S6&S7&S8&S9).
  apply (C143_last_purchase w c ds de ag past L1 w1 l w2 future L2 w3 agent); try assumption.
  - intros s1' Es1'. rewrite Es1 in Es1'. injection Es1' as <-. split; [|exact (fi_states _ _ _ Fi _ _ Es1)].
    rewrite S6. exact (proj1 (proj2 (ready_timers _ _ _ _ _ R _ _ Es))).
  - exists s1. split; [exact Es1|]. congruence.
  - intros s1' judge Es1' Hj. rewrite Es1 in Es1'. injection Es1' as <-. rewrite S8 in Hj. destruct (Fj s judge Es Hj) as (st & Ej).
    destruct (K _ _ Ej) as (y & Ey & Sy). destruct y; try contradiction. destruct Sy as [<- Sb]. exists state. rewrite Ey. now rewrite (proj1 Sb eq_refl).
  - assert (Ha : In agent ag).
    { pose proof (acts_member _ _ _ _ _ _ _ H1 Es A) as Hi. destruct (snd_story_purchases _ _ _ _ _ C) as (s' & Es' & _ & Ei & _). rewrite Es in Es'. injection Es' as <-. rewrite <- Ei. exact Hi. }
    split; [exact Hol|]. intros s1' Es1'. rewrite Es1 in Es1'. injection Es1' as <-. unfold activity_in, back_probability_in. rewrite S7.
    split; intros q Hq; [exact (proj1 (Z s Es agent q Ha) Hq)|rewrite (proj2 (Z s Es agent q Ha) Hq); apply Qle_refl].
Qed.
Print Assumptions C158_last_purchase.

(** The same for the files of a simulation: after such a sale the file of the purchases has no line about the agent. *)
Theorem C158_in_the_files x params g seed start step duration folder del fs c w w' fs' :
  snd_simulated x params g seed start step duration folder del fs c w w' fs' ->
  exists n, covers step duration n /\
  forall past future, steps_of 6 n = past ++ HExec purchases :: future ->
  exists L1 w1 l w2 lines, emits w past L1 w1 /\ execute purchases w1 = (Ok l, w2) /\
    recorded fs' folder "purchases" = records "purchases" L1 ++ records "purchases" l ++ lines /\
    forall agent, acts_now w1 purchases agent -> in_state w1 purchases agent "on_holiday" ->
      (forall r, In r (records "purchases" l) -> r "AGENT"%string = agent -> r "FAILED_SALE"%string <> VBool true) -> of_whom "AGENT" agent lines = [].
Proof.
  intros (S & Hs & St & B & tr & Hr). destruct (built_snd _ _ _ _ _ _ _ _ S B) as ((ds & de & ag & C & _) & Ed & Est).
  destruct (run_recorded _ _ _ _ _ _ _ _ Hr St ltac:(rewrite Est; unfold second in Hs; lia)) as (n & L & Hc & He & Er). rewrite Est in Hc. exists n. split; [exact Hc|].
  intros past future E. pose proof (steps_sensible w n) as Sen. rewrite (snd_six _ _ _ _ _ C) in He, Sen. rewrite E in He, Sen.
  assert (Bi : forall m, by_itself (steps_of 6 m)).
  { intros m h Hh. unfold steps_of in Hh. revert Hh. induction m as [|m IH]; cbn [repeat concat]; [intros []|]. intros Hh. apply in_app_iff in Hh as [Hh|Hh]; [|exact (IH Hh)].
    cbn in Hh. repeat (destruct Hh as [<-|Hh]; [exact I|]). destruct Hh. }
  destruct (emits_app_inv _ _ _ _ _ He) as (L1 & w1 & L2 & -> & H1 & H2).
  inversion H2 as [|y1 a l w2 y5 L3 y7 Hx He3|y1 y2 w2 y4 y5 y6 Hno Hh He3]; subst; [|exfalso; exact (Hno _ eq_refl)].
  exists L1, w1, l, w2, (records "purchases"%string L3). split; [exact H1|]. split; [exact Hx|]. split.
  { rewrite (Er _ _ (snd_header _ _ _ _ _ C "purchases"%string a_purchase ltac:(cbn; tauto))). now rewrite !records_app. }
  intros agent A Hol Nf. apply Forall_app in Sen as [Sen _].
  refine (C158_last_purchase x params g seed _ _ c w past L1 w1 l w2 future L3 w' agent S Hs B Sen H1 A Hol Hx Nf _ He3).
  intros h Hh. apply (Bi n). rewrite E. apply in_or_app. right. now right.
Qed.
Print Assumptions C158_in_the_files.

(** An agent of the scenario of C157, on holidays, acts and buys a SIM. *)
Definition absent : val := VStr "AGENT_000".
Definition on_leave : list happening := [HTransit purchases [absent] ["on_holiday"%string]; HForce purchases [absent]].
Definition leave_check (r : result snd_names * world) : option (bool * bool * nat * bool) :=
  match r with
  | (Ok _, w0) =>
      match happen (HTransit purchases [absent] ["on_holiday"%string]) w0 with
      | (Ok _, w1) =>
          match happen (HForce purchases [absent]) w1 with
          | (Ok _, w2) =>
              match nth_error (w_stories w2) purchases, execute purchases w2 with
              | Some s, (Ok l, _) => Some (existsb (val_eqb absent) (due_members s), match state_of s absent with Some st => String.eqb st "on_holiday" | None => false end,
                  length (records "purchases" l), forallb (fun r : record => val_eqb (r "FAILED_SALE"%string) (VBool false)) (records "purchases" l))
              | _, _ => None
              end
          | _ => None
          end
      | _ => None
      end
  | _ => None
  end.
Lemma leave_shows r n : leave_check r = Some (true, true, n, true) ->
  exists c w L1 w1 l w2, r = (Ok c, w) /\ emits w on_leave L1 w1 /\ acts_now w1 purchases absent /\ in_state w1 purchases absent "on_holiday" /\
    execute purchases w1 = (Ok l, w2) /\ length (records "purchases" l) = n /\ forall r, In r (records "purchases" l) -> r "AGENT"%string = absent -> r "FAILED_SALE"%string <> VBool true.
Proof.
  unfold leave_check. destruct r as [[c|e] w]; [|discriminate]. destruct (happen (HTransit _ _ _) w) as [[[]|e] w1] eqn:E1; [|discriminate].
  destruct (happen (HForce _ _) w1) as [[[]|e] w2] eqn:E2; [|discriminate]. destruct (nth_error (w_stories w2) purchases) as [s|] eqn:Es; [|discriminate].
  destruct (execute purchases w2) as [[l|e] w3] eqn:Ex; [|discriminate]. intros [= H1 H2 H3 H4]. exists c, w, [], w2, l, w3. split; [reflexivity|].
  split. { eapply emits_other; [discriminate|exact E1|]. eapply emits_other; [discriminate|exact E2|]. constructor. }
  split. { exists s. split; [exact Es|]. apply existsb_exists in H1 as (v & Hv & E). apply val_eqb_eq in E. now subst v. }
  split. { unfold state_of in H2. destruct (dget absent (st_timer s)) as [[st r]|] eqn:Ed; [|discriminate]. cbn in H2. apply String.eqb_eq in H2. subst st. exists s, r. split; [exact Es|now apply dget_In]. }
  split; [exact Ex|]. split; [exact H3|]. intros r Hr _ F. rewrite forallb_forall in H4. specialize (H4 _ Hr). rewrite F in H4. discriminate.
Qed.
Example C158_example : exists c w L1 w1 l w2, build_snd sample_snd_sources crowd (new_circus stream 6 monday hour) = (Ok c, w) /\
  Forall (sensible w) on_leave /\ emits w on_leave L1 w1 /\ acts_now w1 purchases absent /\ in_state w1 purchases absent "on_holiday" /\
  execute purchases w1 = (Ok l, w2) /\ length (records "purchases" l) = 2 /\ forall r, In r (records "purchases" l) -> r "AGENT"%string = absent -> r "FAILED_SALE"%string <> VBool true.
Proof.
  assert (K : leave_check (build_snd sample_snd_sources crowd (new_circus stream 6 monday hour)) = Some (true, true, 2, true)) by (vm_compute; reflexivity).
  destruct (leave_shows _ _ K) as (c & w & L1 & w1 & l & w2 & B & He & Rest). clear K. exists c, w, L1, w1, l, w2. split; [exact B|]. split; [|exact (conj He Rest)].
  destruct (built_snd _ _ _ _ _ _ _ _ sample_snd_sane B) as ((ds & de & ag & C & T & R & _) & Ed & Est). rewrite Est in R. specialize (R ltac:(discriminate)). clear B He Rest Ed Est.
  assert (Ha : In absent ag). { apply (proj2 (proj2 (chain_agents _ _ _ _ _ _ T))). exists 0%Z. split; [cbn; lia|reflexivity]. }
  destruct (snd_story_purchases _ _ _ _ _ C) as (s & Es & _ & Ei & _).
  assert (Hs : story_in w purchases) by (eexists; exact Es).
  assert (Hm : forall i, In i [absent] -> member_of w purchases i) by (intros i [<-|[]]; exists s; split; [exact Es|]; rewrite Ei; exact Ha).
  constructor; [|constructor; [|constructor]].
  - split; [exact Hs|]. split; [reflexivity|]. split; [exact Hm|]. intros st [<-|[]]. exact (ready_holiday _ _ _ _ _ R).
  - split; [exact Hs|exact Hm].
Qed.
