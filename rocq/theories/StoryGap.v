(** How long a member of a story with a cyclic timer can wait before it acts. *)
From Verif Require Import Base BaseFacts Rng RngFacts Utils UtilsFacts Relationship RelationshipFacts Frame Gens GensProps
  Clock SpecClock ClockProps Attribute AttributeFacts World Story Ops OpsFacts Fs Circus SpecStory StoryFacts StoryExec
  StoryProps SpecOps OpsProps OpsColumns StoryMore StoryStates StoryBack StoryDelay StoryNew SpecWait.
From Coq Require Import Lqa Qround Permutation.
Local Open Scope nat_scope.

Definition cycling (p : timer_profile) (start cstep : Z) (bins : nat) (g : tgen) : Prop := exists k, cyclic_at p start cstep k bins g.
Lemma cycling_gen p start cstep bins g obs out g' : cycling p start cstep bins g ->
  tgen_generate g obs = Ok (out, g') -> cycling p start cstep bins g'.
Proof. intros (k & H) E. exists k. eapply live_gen; eauto. Qed.

Lemma cycling_increment p start cstep bins g : cycling p start cstep bins g -> cycling p start cstep bins (tgen_increment g).
Proof.
  intros (k & y & Hl & Hb & ->). exists (S k), (cyclic_increment y). split; [now constructor|]. split; [|reflexivity].
  rewrite <- Hb. reflexivity.
Qed.

Section Cycling.
  Context (p : timer_profile) (start cstep : Z) (bins : nat).
  Notation at_ := (tg_at (cycling p start cstep bins)).
  Notation kept := (tg_kept (cycling p start cstep bins)).
  Lemma ck_refl t w : kept t w w. Proof. exact (fun H => H). Qed.
  Lemma ck_trans t a b c : kept t a b -> kept t b c -> kept t a c. Proof. unfold tg_kept. auto. Qed.
  Lemma tick_ck t a ids : keeps (kept t) (story_tick a ids).
  Proof.
    intros w. apply tg_same. unfold story_tick, bindM, deref, lift.
    destruct (nth_error (w_stories w) a) as [s|]; [|reflexivity]. destruct (timer_tick s ids); reflexivity.
  Qed.
  Ltac kbind t := apply (keeps_bind (kept t)); [exact (ck_trans t)| |].
  Lemma execute_ck t a : keeps (kept t) (execute a).
  Proof.
    unfold execute. kbind t; [apply (keeps_deref (kept t) (ck_refl t))|]. intros s.
    kbind t; [intros w; now apply tg_same|]. intros _.
    destruct (active_inactive_ids s) as [act inact].
    change (keeps (kept t) (let* all_logs := match act with
      | [] => ret []
      | _ => let* (_, l) := run_chain (st_ops s) (init_story_data (st_field s) act) in
             let* _ := if st_auto s then story_reset a (Some act) else story_tick a act in ret l
      end in let* _ := story_tick a inact in ret all_logs)).
    kbind t.
    - destruct act; [apply (keeps_ret (kept t) (ck_refl t))|]. kbind t; [apply chain_tg, cycling_gen|]. intros [d l].
      kbind t; [|intros; apply (keeps_ret (kept t) (ck_refl t))].
      destruct (st_auto s); [apply tg_reset, cycling_gen|apply tick_ck].
    - intros l. kbind t; [apply tick_ck|intros; apply (keeps_ret (kept t) (ck_refl t))].
  Qed.

  Lemma happen_ck t h w : kept t w (snd (happen h w)).
  Proof.
    destruct h; cbn [happen].
    - pose proof (execute_ck t a w). destruct (execute a w) as [[l|e] w']; exact H.
    - cbn [snd]. unfold increment_clock, clock_increment. intros (g & Hg & Hc). unfold tg_at. cbn [w_tgens set_tgens set_clock].
      rewrite notify_nth, Hg. eexists. split; [reflexivity|]. induction (count_nat t (c_listeners (w_clock w))); [exact Hc|]. now apply cycling_increment.
    - apply tg_force.
    - apply tg_reset, cycling_gen.
    - apply tg_transit.
    - apply tick_ck.
  Qed.

  (** a reset gives a delay shorter than the activity allows *)
  Lemma reset_bound s g oids s' g' lo i : cycling p start cstep bins g -> NoDup (st_ids s) -> (0 < lo)%Q ->
    (forall st q, activity_in s i st q -> (lo <= q)%Q) ->
    reset_timers s g oids = Ok (s', g') -> match oids with Some l => NoDup l | None => True end ->
    In i (reset_ids s oids) ->
    exists z, (0 <= z < Z.of_nat bins * Qceiling (2 / lo))%Z /\ remaining_of s' i = Some (Some z).
  Proof.
    intros (k & y & Hl & Hb & ->) Nd Hlo Hact H Ho Hi. destruct (reset_rows _ _ _ _ _ H Nd Ho) as (act & cnt & Hk & Hg & Hv & Hr & _).
    destruct (Hr i Hi) as (q & t & Hq & Ht & E).
    assert (Hbq : (lo <= q)%Q).
    { destruct (Hv i q Hq) as (st & _ & Hdec). apply declared_activity in Hdec. eauto. }
    assert (Hne : act <> []) by (intros ->; destruct Hq). specialize (Hg Hne).
    assert (Nda : NoDup (map fst act)).
    { rewrite Hk. unfold reset_ids. apply index_difference_NoDup. destruct oids; [exact Ho|exact Nd]. }
    cbn [tgen_generate] in Hg. apply bind_ok in Hg as ([ts y'] & Hg & Eg). injection Eg as <- _.
    destruct (generate_timers p start cstep k y act Hl Nda) as (ts0 & y0 & E0 & L0 & HF).
    assert (ts0 = ts) by congruence. subst ts0.
    assert (Ht' : match t with None => (q <= 0)%Q | Some z => (0 < q)%Q /\ (0 <= z < Z.of_nat (y_bins y) * Qceiling (2 / q))%Z end).
    { clear -HF L0 Nda Hq Ht. revert L0 Nda Hq Ht. induction HF as [|o u obs ts Hou HF IH]; intros L Nd Hi Ht; [destruct Hi|].
      cbn in L. injection L as L1 L2. cbn in Nd. inversion Nd as [|? ? N1 N2]; subst.
      destruct Hi as [->|Hi], Ht as [->|Ht].
      - exact Hou.
      - exfalso. apply N1. cbn [fst] in *. rewrite <- L2. now apply (in_map fst _ _ Ht).
      - exfalso. apply N1. cbn [fst] in *. rewrite <- L1. now apply (in_map fst _ _ Hi).
      - now apply IH. }
    assert (Hz : Qeq_bool q 0 = false).
    { apply not_true_is_false. intros X. apply Qeq_bool_iff in X. lra. }
    rewrite Hz in E. destruct t as [z|]; [|exfalso; lra]. rewrite Hb in Ht'. exists z. split; [|exact E].
    assert (Hc : (Qceiling (2 / q) <= Qceiling (2 / lo))%Z).
    { apply Qceiling_resp_le. apply Qle_shift_div_l; [assumption|].
      assert (X : (2 / q * lo == 2 * (lo / q))%Q) by (field; lra). rewrite X.
      assert (Y : (lo / q <= 1)%Q) by (apply Qle_shift_div_r; lra). lra. }
    destruct Ht' as [_ Hz']. split; [lia|]. eapply Z.lt_le_trans; [apply Hz'|]. apply Z.mul_le_mono_nonneg_l; lia.
  Qed.

  (** What stays true between happenings that do not reschedule the story. *)
  Definition waiting (a : nat) (i : val) (lo : Q) (w : world) (s : story) : Prop :=
    nth_error (w_stories w) a = Some s /\ NoDup (st_ids s) /\ st_auto s = true /\ at_ (st_tgen s) w /\
    (forall st q, activity_in s i st q -> (lo <= q)%Q) /\
    exists z, (0 <= z < Z.of_nat bins * Qceiling (2 / lo))%Z /\ remaining_of s i = Some (Some z).

  Lemma waiting_step a i lo w s h l w' : (0 < lo)%Q -> waiting a i lo w s -> history w (h :: l) w' -> nobody_reschedules w a (h :: l) ->
    exists w1 s1, happen h w = (Ok tt, w1) /\ history w1 l w' /\ nobody_reschedules w1 a l /\ waiting a i lo w1 s1.
  Proof.
    intros Hlo (Hs & Nd & Ha & Ht & Hact & z & Hz & Hr) Hh Hn.
    destruct (history_step _ _ _ _ _ _ Hh Hn Hs) as (w1 & s1 & H1 & H2 & Hn1 & Hs1 & S1 & T1).
    pose proof S1 as (_ & _ & _ & Et & Ea & _ & Ep & _ & Ei).
    exists w1, s1. split; [exact H1|]. split; [exact H2|]. split; [exact Hn1|].
    pose proof (happen_ck (st_tgen s) h w Ht) as Ht1. rewrite H1 in Ht1. cbn [snd] in Ht1.
    split; [exact Hs1|]. split; [now rewrite Ei|]. split; [congruence|]. split; [now rewrite Et|].
    split; [unfold activity_in; rewrite Ep; exact Hact|].
    destruct (hexec_cases a h) as [->|Nh]; [|exists z; split; [exact Hz|now rewrite T1]].
    destruct (Z.eq_dec z 0) as [->|Nz].
    - destruct (exec_history _ _ _ _ H1 Hs) as (lg & Hx).
      destruct (exec_spec _ _ _ _ _ Hx Hs Nd) as (s' & Es' & _ & _ & _ & _ & Hreset).
      { intros o Ho. eapply (proj1 Hn); eauto. }
      assert (s' = s1) by congruence. subst s'.
      assert (Hdue : In i (due_members s)) by (now apply due_iff).
      destruct Hreset as (s2 & s3 & g & g' & St2 & F2 & R2 & Er & R3 & d1 & w2 & Hc & Hg & _); [intros X; rewrite X in Hdue; destruct Hdue|exact Ha|].
      pose proof (chain_tg _ (cycling_gen p start cstep bins) (st_tgen s) (st_ops s)
        (init_story_data (st_field s) (due_members s)) (unforced a s w)) as K. unfold tg_kept in K. rewrite Hc in K.
      destruct (K Ht) as (g0 & Eg0 & Hcy). cbn [snd] in Eg0. assert (g0 = g) by congruence. subst g0.
      destruct St2 as (_&_&_&_&_&_&Q7&_&Q9).
      destruct (reset_bound s2 g _ _ _ lo i Hcy ltac:(now rewrite Q9) Hlo ltac:(unfold activity_in; rewrite Q7; exact Hact) Er (NoDup_due _ Nd)) as (z' & Hz' & E).
      { apply reset_addressed. rewrite F2. auto. }
      exists z'. split; [exact Hz'|]. now rewrite R3.
    - destruct (own_step _ _ _ _ _ _ _ H1 (proj1 Hn) Hs Hs1 Nd Hr) as [X _].
      exists (z - 1)%Z. split; [lia|]. rewrite X by congruence. cbn [ticked]. destruct z; try lia. reflexivity.
  Qed.

  Lemma waiting_later a i lo l : forall w s w', (0 < lo)%Q -> waiting a i lo w s -> history w l w' -> nobody_reschedules w a l ->
    exists s', waiting a i lo w' s'.
  Proof.
    induction l as [|h l IH]; intros w s w' Hlo Hw Hh Hn; [inversion Hh; subst; eauto|].
    destruct (waiting_step _ _ _ _ _ _ _ _ Hlo Hw Hh Hn) as (w1 & s1 & H1 & H2 & Hn1 & Hw1). eauto.
  Qed.
End Cycling.

Lemma history_app l1 : forall w l2 w', history w (l1 ++ l2) w' -> exists w1, history w l1 w1 /\ history w1 l2 w'.
Proof.
  induction l1 as [|h l1 IH]; intros w l2 w' H; [exists w; split; [constructor|exact H]|]. cbn [app] in H.
  apply history_inv in H as (w1 & H1 & _ & H2). destruct (IH _ _ _ H2) as (w2 & H3 & H4). exists w2. split; [econstructor; eauto|exact H4].
Qed.
Lemma nobody_app w a l1 l2 w1 : history w l1 w1 -> nobody_reschedules w a (l1 ++ l2) -> nobody_reschedules w1 a l2.
Proof.
  intros H [Hops Hu]. pose proof (history_after _ _ _ H) as ->. split; [|intros h Hh; apply Hu, in_or_app; now right].
  eapply static_ops; [|exact Hops]. apply after_static.
Qed.

Lemma bounded_wait w l1 w1 l2 w2 a i y p start cstep k lo z :
  history w l1 w1 -> history w1 l2 w2 -> distinct_members w -> nobody_reschedules w a (l1 ++ l2) -> auto_reset w a true ->
  timer_generator w a (TCyclic y) -> live p start cstep k y -> activity_at_least w a i lo -> (0 < lo)%Q ->
  counter w a i (Some z) -> (0 <= z < longest_wait y lo)%Z ->
  (longest_wait y lo <= Z.of_nat (executions a l2))%Z ->
  exists n, (Z.of_nat n < longest_wait y lo)%Z /\ acts_at a i w1 l2 n.
Proof.
  intros H1 H2 D Hn (s & Hs & Ha) (s' & Hs' & Hg) Hl Hact Hlo (s0 & st & Hs0 & Hc) Hz Hex. unfold longest_wait in *.
  assert (s' = s) by congruence. subst s'. assert (s0 = s) by congruence. subst s0.
  assert (Nd : NoDup (st_ids s)) by (eapply D; eauto).
  assert (Hr : remaining_of s i = Some (Some z)).
  { unfold remaining_of. rewrite (In_dget _ _ _ Nd Hc). reflexivity. }
  assert (Hw : waiting p start cstep (y_bins y) a i lo w s).
  { split; [exact Hs|]. split; [exact Nd|]. split; [exact Ha|]. split.
    - exists (TCyclic y). split; [exact Hg|]. exists k, y. auto.
    - split; [now apply Hact|]. exists z. auto. }
  destruct (waiting_later p start cstep (y_bins y) a i lo l1 w s w1 Hlo Hw H1) as (s1 & Hs1 & Nd1 & _ & _ & _ & z1 & Hz1 & Hr1).
  { split; [exact (proj1 Hn)|]. intros h Hh. apply (proj2 Hn), in_or_app. now left. }
  exists (Z.to_nat z1). split; [lia|].
  apply (acts_on_time a w1 l2 w2 s1 i (Z.to_nat z1) (Z.to_nat z1) H2); auto.
  - eapply nobody_app; eauto.
  - rewrite Hr1. do 2 f_equal. lia.
  - split; [reflexivity|]. lia.
Qed.

Lemma created_wait order name pop f default states t w a w' y p start cstep k i lo po :
  create_story order name pop f default states t true w = (Ok a, w') -> (forall l, Permutation (order l) l) ->
  nth_error (w_pops w) pop = Some po -> NoDup (p_ids po) -> In i (p_ids po) ->
  nth_error (w_tgens w) t = Some (TCyclic y) -> live p start cstep k y -> activity_at_least w' a i lo -> (0 < lo)%Q ->
  exists z y', counter w' a i (Some z) /\ (0 <= z < longest_wait y lo)%Z /\
    timer_generator w' a (TCyclic y') /\ live p start cstep k y' /\ longest_wait y' lo = longest_wait y lo.
Proof.
  intros H Hord Hp Nd Hi Ht Hl Hact Hlo. destruct (create_story_ok _ _ _ _ _ _ _ _ _ _ _ H Hord) as (s & w1 & Hn & Hs & Hw & -> & ->).
  destruct (new_story_ok _ _ _ _ _ _ _ _ _ _ _ Hs Hord) as (po' & gens & cols & g' & sb & Hp' & Hw1 & St & Hf & Hst & Hsb & F & Hm & Hr).
  assert (po' = po) by congruence. subst po'. destruct Hr as (g & g1 & Hg & Hr & ->). assert (g = TCyclic y) by congruence. subst g.
  assert (Hids : st_ids sb = p_ids po).
  { rewrite Hsb. unfold st_ids, dkeys. cbn. unfold fresh_timer. rewrite map_map. apply map_id. }
  assert (Hs' : nth_error (w_stories (set_stories (w_stories w ++ [s]) w1)) (length (w_stories w)) = Some s).
  { cbn [w_stories set_stories]. rewrite nth_error_app2, Nat.sub_diag by lia. reflexivity. }
  destruct St as (S1&S2&S3&S4&S5&S6&S7&S8&S9).
  destruct (reset_bound p start cstep (y_bins y) sb (TCyclic y) None s g1 lo i) as (z & Hz & Er); auto.
  - exists k, y. auto.
  - now rewrite Hids.
  - intros st q Hq. apply (Hact s Hs' st). unfold activity_in in *. now rewrite S7.
  - apply reset_addressed. rewrite Hids. split; [exact Hi|]. rewrite Hsb. intros [].
  - assert (Hc : cyclic_at p start cstep k (y_bins y) g1).
    { eapply (tg_reset_gen _ (live_gen p start cstep k (y_bins y))); [exact Hr|]. exists y. auto. }
    destruct Hc as (y1 & Hl1 & Hb1 & ->). exists z, y1. split; [|split; [exact Hz|split; [|split; [exact Hl1|unfold longest_wait; now rewrite Hb1]]]].
    2:{ exists s. split; [exact Hs'|]. rewrite S4, Hsb, Hw1. cbn [st_tgen w_tgens set_stories set_tgens]. eapply nth_put_same; eauto. }
    unfold remaining_of in Er. destruct (dget i (st_timer s)) as [[st r]|] eqn:E; [|discriminate].
    injection Er as ->. exists s, st. split; [exact Hs'|]. now apply dget_In.
Qed.
