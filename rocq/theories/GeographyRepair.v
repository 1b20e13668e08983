(** The story of repairs is driven by the story of break-downs. *)
From Verif Require Import Base BaseFacts Rng RngFacts Utils UtilsFacts Relationship RelationshipFacts SpecRelationship RelationshipProps
  Frame Gens GensProps Clock SpecClock ClockProps Attribute AttributeFacts World Story Ops OpsFacts Fs Circus SpecStory StoryFacts StoryExec
  StoryProps StoryStates StoryDelay SpecOps OpsProps OpsColumns OpsMore StoryMore SpecWorld SpecPopulation PopProps PopMore SpecAct ActFacts GensKept WorldProps
  Geography SpecGeography GeographyRun GeographyBuild GeographyLog SpecWait StoryGap GeographyProps.
From Coq Require Import Permutation Lqa Qround.
Local Open Scope nat_scope.

(** What a happening leaves alone, when the story it executes does not reschedule [a]. *)
Lemma happen_timed_by a h w r w' s : happen h w = (r, w') -> h <> HExec a ->
  nth_error (w_stories w) a = Some s ->
  (forall b sb o, h = HExec b -> nth_error (w_stories w) b = Some sb -> In o (st_ops sb) -> reschedules a o = false) ->
  match h with HForce b _ | HReset b _ | HTick b _ => b <> a | _ => True end ->
  exists s', nth_error (w_stories w') a = Some s' /\ timed_same a a s s'.
Proof.
  intros Hh Nh Hs Hops Ho. assert (E : w' = snd (happen h w)) by now rewrite Hh. subst w'. clear Hh.
  revert s Hs. fold (at_story (timed_same a a) a w (snd (happen h w))).
  pose proof (timed_same_refl a a) as Rf. pose proof (timed_same_trans a a) as Tr.
  destruct h as [b| |b ids|b ids|b ids states|b ids].
  - rewrite snd_exec. assert (N : a <> b) by congruence.
    apply (at_execute (timed_same a a) Rf Tr a b (fun w0 => w0 = w)); auto.
    intros w0 s w1 -> Hb. apply (stories_rel_at (timed_same a)), chain_timed. eauto.
  - intros s E. exists s. split; [|apply Rf]. cbn [happen snd]. now rewrite increment_stories.
  - apply at_force; auto.
  - apply at_reset; auto.
  - apply (stories_rel_at (timed_same a)).
    apply (sr_transit _ (fun _ => True)); auto using timed_same_refl; [apply timed_same_trans|].
    intros c s ids' st s' _ E. destruct (transit_spec _ _ _ _ E) as (_ & _ & S & F & _).
    split; [exact S|]. intros _. split; [exact F|]. intros i. eapply transit_remaining; eauto.
  - apply at_tick; auto.
Qed.

(** The ids a reset operation on a field resets. *)
Lemma reset_field_ids a f d w d' l w' : run_op (OpReset a (Some f)) d w = (Ok (d', l), w') ->
  exists ids, story_reset a (Some ids) w = (Ok tt, w') /\ NoDup ids /\ forall i, In i ids <-> names_row (Some f) d i.
Proof.
  intros H. cbn [run_op] in H. unfold side_effect in H. mstep H. destruct x. injection H as _ _ <-.
  mstep E. apply lift_ok in E0. destruct E0 as [E0 ->]. eexists. split; [exact E|]. split; [apply uniq_NoDup|].
  intros i. rewrite uniq_In. apply get_col_cells in E0. subst x. rewrite in_map_iff. unfold dropna. split.
  - intros ([k v] & E1 & Hk). cbn [snd] in E1. subst v. apply filter_In in Hk as [Hk Hna]. apply in_map_iff in Hk as (row & E1 & Hr).
    injection E1 as <- E1. exists row. split; [exact Hr|]. split; [exact E1|]. cbn [snd] in Hna. intros ->. discriminate.
  - intros (row & Hr & Hc & Hn). exists (fst row, i). split; [reflexivity|]. apply filter_In. split.
    + apply in_map_iff. exists row. rewrite Hc. auto.
    + cbn [snd]. destruct i; try reflexivity. congruence.
Qed.

(** One execution of the break-downs, seen from the story of repairs. *)
Lemma break_execution src p start cstep bins w l w' b r sb sr u hh bk i lo :
  execute b w = (Ok l, w') -> r <> b -> nth_error (w_stories w) b = Some sb -> nth_error (w_stories w) r = Some sr ->
  st_ops sb = break_down_ops src u hh r ++ [OpBack b bk] -> st_field sb = "CELL_ID"%string ->
  NoDup (st_ids sb) -> NoDup (st_ids sr) -> st_forced sr = [] -> tg_at (cycling p start cstep bins) (st_tgen sr) w ->
  (forall st q, activity_in sr i st q -> (lo <= q)%Q) -> (0 < lo)%Q -> i <> VNA ->
  exists sr', nth_error (w_stories w') r = Some sr' /\ static sr sr' /\ st_forced sr' = [] /\
    (In i (due_members sb) -> exists z, (0 <= z < Z.of_nat bins * Qceiling (2 / lo))%Z /\ remaining_of sr' i = Some (Some z)) /\
    (~ In i (due_members sb) -> remaining_of sr' i = remaining_of sr i).
Proof.
  intros H Nab Hsb Hs Ho Hfd Ndb Nd Hf Hg Hact Hlo Hna.
  apply execute_ok in H. destruct H as (s0 & H0 & H). rewrite Hsb in H0. injection H0 as <-.
  assert (Hs0 : nth_error (w_stories (unforced b sb w)) r = Some sr).
  { unfold unforced. cbn [w_stories set_stories]. rewrite nth_put_other by auto. exact Hs. }
  destruct H as [(E & _ & Ht)|(Hdue & dd & w2 & w3 & Hc & Hm & Ht)].
  { apply story_tick_ok in Ht as (sx & sy & _ & _ & ->). exists sr. cbn [w_stories set_stories]. rewrite nth_put_other by auto.
    split; [exact Hs0|]. split; [apply static_refl|]. split; [exact Hf|]. rewrite E. split; [intros []|reflexivity]. }
  rewrite Ho, Hfd in Hc.
  set (ops1 := [OpGenerate u "NEW_HEALTH_LEVEL" None; OpAttrUpdate hh "CELL_ID" "NEW_HEALTH_LEVEL"]).
  set (ops2 := [OpTimestamp "TIME" true (time_format src); field_logger "cell_status" (Some status_cols) []; OpBack b bk]).
  change (break_down_ops src u hh r ++ [OpBack b bk]) with (ops1 ++ OpReset r (Some "CELL_ID"%string) :: ops2) in Hc.
  assert (Hn1 : forall o, In o ops1 -> reschedules r o = false) by (intros o [<-|[<-|[]]]; reflexivity).
  assert (Hn2 : forall o, In o ops2 -> reschedules r o = false) by (intros o [<-|[<-|[<-|[]]]]; reflexivity).
  set (d0 := init_story_data "CELL_ID" (due_members sb)) in *.
  pose proof (chain_app ops1 (OpReset r (Some "CELL_ID"%string) :: ops2) d0 (unforced b sb w)) as Ha.
  destruct (run_chain ops1 d0 (unforced b sb w)) as [[[d1 l1]|e] w1] eqn:Hc1; [|rewrite Ha in Hc; discriminate].
  pose proof (chain_app [OpReset r (Some "CELL_ID"%string)] ops2 d1 w1) as Hb.
  destruct (run_chain [OpReset r (Some "CELL_ID"%string)] d1 w1) as [[[d2 l2]|e] w1'] eqn:E2.
  2:{ cbn [app] in Hb. rewrite Hb in Ha. rewrite Ha in Hc. discriminate. }
  destruct (run_chain ops2 d2 w1') as [[[d3 l3]|e] w1''] eqn:E3.
  2:{ cbn [app] in Hb. rewrite Hb in Ha. rewrite Ha in Hc. discriminate. }
  destruct Hb as (l4 & Hb & _). cbn [app] in Hb. rewrite Hb in Ha. destruct Ha as (l5 & Ha & _). rewrite Ha in Hc.
  injection Hc as -> -> ->.
  (* before the reset *)
  pose proof (chain_rel (chain_timed r ops1 d0 (unforced b sb w) Hn1) _ _ Hc1) as [_ T1].
  destruct (T1 _ _ Hs0) as (s1 & Es1 & St1 & T1'). destruct (T1' eq_refl) as [F1 R1].
  assert (G1 : tg_at (cycling p start cstep bins) (st_tgen sr) w1).
  { pose proof (chain_tg _ (cycling_gen p start cstep bins) (st_tgen sr) ops1 d0 (unforced b sb w)) as K. unfold tg_kept in K. rewrite Hc1 in K.
    apply K. exact Hg. }
  assert (Hd1 : forall j, names_row (Some "CELL_ID"%string) d1 j <-> In j (due_members sb) /\ j <> VNA).
  { unfold run_chain, ops1 in Hc1. apply run_list_step in Hc1 as (d4 & l6 & w4 & all1 & X1 & _ & Hc1).
    apply run_list_step in Hc1 as (d5 & l7 & w5 & all2 & X2 & _ & Hc1). cbn [run_list] in Hc1. injection Hc1 as -> _ _.
    apply generate_adds in X1; [|cbn; intuition discriminate]. destruct X1 as (vs & gens' & Ev & (Ec & Lv & Er) & ->).
    unfold d0 in Ec, Lv, Er. cbn [df_cols df_rows init_story_data app] in Ec, Lv, Er. rewrite map_length in Lv.
    assert (Hrows : df_rows d4 = map (fun x => (fst x, [fst x; snd x])) (combine (due_members sb) vs)).
    { rewrite Er, combine_map_l, map_map. apply map_ext. intros [k v]. reflexivity. }
    assert (Hne : df_rows d4 <> []). { rewrite Hrows. destruct (due_members sb); [easy|]. destruct vs; discriminate. }
    pose proof (attr_update_single _ _ _ _ _ _ _ _ Hne X2) as Hsv.
    destruct (act_attr_update _ _ _ _ _ _ _ _ X2 Hsv) as (-> & _). intros j. unfold names_row. rewrite Hrows, Ec. split.
    - intros (row & Hrow & Hcell & Hj). apply in_map_iff in Hrow as ([k v] & <- & Hk). cbn in Hcell. subst k. split; [|exact Hj]. now apply in_combine_l in Hk.
    - intros [Hj Hj']. apply In_nth_error in Hj as (n & En).
      destruct (nth_error vs n) as [v|] eqn:Ev'; [|apply nth_error_None in Ev'; assert (n < length (due_members sb)) by (apply nth_error_Some; congruence); lia].
      exists (j, [j; v]). split; [|split; [reflexivity|exact Hj']]. apply in_map_iff. exists (j, v). split; [reflexivity|].
      apply nth_error_In with (n := n). clear -Lv En Ev'. revert n vs Lv En Ev'. induction (due_members sb) as [|x xs IH]; intros [|n] [|v0 vs] L E1 E2; try discriminate.
      + cbn in *. congruence.
      + cbn in *. apply IH; auto. }
  (* the reset *)
  assert (E4 : exists dr lr, run_op (OpReset r (Some "CELL_ID"%string)) d1 w1 = (Ok (dr, lr), w1')).
  { unfold run_chain in E2. cbn [run_list] in E2. mstep E2. destruct x as [dr lr]. mstep E2. apply lift_ok in E0. destruct E0 as [_ ->].
    injection E2 as _ _ <-. eauto. }
  destruct E4 as (dr & lr & E4). destruct (reset_field_ids _ _ _ _ _ _ _ E4) as (ids & Er & Nids & Hids).
  pose proof St1 as (S1&S2&S3&S4&S5&S6&S7&S8&S9).
  destruct G1 as (g1 & Hg1 & Hd1').
  apply story_reset_ok in Er as (sx & s2 & g2 & g3 & Ex & Eg & Ereset & Ew).
  assert (sx = s1) by congruence. subst sx. assert (g2 = g1) by (rewrite S4 in Eg; congruence). subst g2.
  destruct (reset_spec _ _ _ _ _ Ereset) as (St2 & F2 & _ & Rno & _).
  assert (Es2 : nth_error (w_stories w1') r = Some s2).
  { rewrite Ew. cbn [w_stories set_stories]. eapply nth_put_same; eauto. }
  assert (Haddr : In i (reset_ids s1 (Some ids)) <-> In i (due_members sb)).
  { rewrite reset_addressed, Hids, Hd1, F1, Hf. cbn [In]. tauto. }
  (* after the reset *)
  pose proof (chain_rel (chain_timed r ops2 d2 w1' Hn2) _ _ E3) as [_ T3].
  destruct (T3 _ _ Es2) as (s3 & Es3 & St3 & T3'). destruct (T3' eq_refl) as [F3 R3].
  assert (E5 : nth_error (w_stories w') r = Some s3).
  { assert (E5 : nth_error (w_stories w3) r = Some s3).
    { destruct (st_auto sb).
      - apply story_reset_ok in Hm. destruct Hm as (sx & sy & gx & gy & _ & _ & _ & ->).
        cbn [w_stories set_stories set_tgens]. rewrite nth_put_other by auto. exact Es3.
      - apply story_tick_ok in Hm. destruct Hm as (sx & sy & _ & _ & ->).
        cbn [w_stories set_stories]. rewrite nth_put_other by auto. exact Es3. }
    apply story_tick_ok in Ht. destruct Ht as (sx & sy & _ & _ & ->).
    cbn [w_stories set_stories]. rewrite nth_put_other by auto. exact E5. }
  exists s3. split; [exact E5|]. split; [eapply static_trans; [|exact St3]; eapply static_trans; [exact St1|exact St2]|].
  split; [congruence|]. split.
  - intros Hi. apply Haddr in Hi.
    destruct (reset_bound p start cstep bins s1 g1 (Some ids) s2 g3 lo i Hd1') as (z & Hz & Ez); auto.
    + now rewrite S9.
    + unfold activity_in. rewrite S7. exact Hact.
    + exists z. split; [exact Hz|]. now rewrite R3.
  - intros Hi. rewrite R3, Rno, R1; [reflexivity|]. now rewrite Haddr.
Qed.

(** ** The counter of a cell in the story of repairs *)
Section Repair.
  Context (src : sources) (p : timer_profile) (start cstep : Z) (bins : nat) (b r u hh bk : nat) (i : val) (lo : Q).
  Definition repairing (w : world) (z : Z) : Prop := exists sb sr,
    nth_error (w_stories w) b = Some sb /\ nth_error (w_stories w) r = Some sr /\
    st_ops sb = break_down_ops src u hh r ++ [OpBack b bk] /\ st_field sb = "CELL_ID"%string /\
    NoDup (st_ids sb) /\ NoDup (st_ids sr) /\ st_forced sr = [] /\ st_auto sr = false /\
    tg_at (cycling p start cstep bins) (st_tgen sr) w /\
    (forall st q, activity_in sr i st q -> (lo <= q)%Q) /\ (-1 <= z)%Z /\ remaining_of sr i = Some (Some z).

  Hypothesis (Nrb : r <> b) (Hlo : (0 < lo)%Q) (Hna : i <> VNA).

  Lemma other_exec : HExec b <> HExec r. Proof. intros [= X]. congruence. Qed.

  Lemma repairing_now w z : repairing w z -> (acts_now w r i <-> z = 0%Z).
  Proof.
    intros (sb & sr & _ & Hr & _ & _ & _ & Nd & _ & _ & _ & _ & _ & E). rewrite (acts_now_iff _ _ _ _ Hr Nd), E. split; [congruence|now intros ->].
  Qed.

  Lemma repairing_step w z h l w1 : repairing w z -> happen h w = (Ok tt, w1) -> rescheduled_only_by b w r (h :: l) ->
    rescheduled_only_by b w1 r l /\ exists z', repairing w1 z' /\
      (h = HExec r -> z' = if (z =? -1)%Z then (-1)%Z else (z - 1)%Z) /\
      (h = HExec b -> (acts_now w b i -> (0 <= z' < Z.of_nat bins * Qceiling (2 / lo))%Z) /\ (~ acts_now w b i -> z' = z)) /\
      (h <> HExec r -> h <> HExec b -> z' = z).
  Proof.
    intros (sb & sr & Hb & Hr & Ho & Hf & Ndb & Nd & Hfo & Hau & Ht & Hact & Hz & Ez) Hh [Hops Huser].
    pose proof (happen_static h w) as St. rewrite Hh in St. cbn [snd] in St. pose proof St as [_ St'].
    destruct (St' _ _ Hb) as (sb1 & Hb1 & B1). destruct (St' _ _ Hr) as (sr1 & Hr1 & R1). clear St'.
    split.
    { split; [|intros h' Hh'; apply Huser; now right]. intros c s o Nc Ec Hin. pose proof St as [Lst St'].
      assert (X : exists s0, nth_error (w_stories w) c = Some s0).
      { destruct (nth_error (w_stories w) c) eqn:E; [eauto|]. apply nth_error_None in E.
        assert (c < length (w_stories w1)) by (apply nth_error_Some; congruence). lia. }
      destruct X as (s0 & E0). destruct (St' _ _ E0) as (s' & E' & S'). assert (s' = s) by congruence. subst s'.
      eapply Hops; [exact Nc|exact E0|]. destruct S' as (_&_&_&_&_&_&_&Eo&_). now rewrite <- Eo. }
    pose proof (happen_ck p start cstep bins (st_tgen sr) h w Ht) as Ht1. rewrite Hh in Ht1. cbn [snd] in Ht1.
    pose proof B1 as (_&_&B3&_&_&_&_&B8&B9). pose proof R1 as (_&_&_&R4&R5&_&R7&_&R9).
    assert (K : forall z', st_forced sr1 = [] -> (-1 <= z')%Z -> remaining_of sr1 i = Some (Some z') -> repairing w1 z').
    { intros z' F Hz' E. exists sb1, sr1. rewrite B8, B3, B9, R9, R5, R4. split; [exact Hb1|]. split; [exact Hr1|]. do 4 (split; [assumption|]).
      split; [exact F|]. do 2 (split; [assumption|]). split; [unfold activity_in; rewrite R7; exact Hact|]. auto. }
    destruct (hexec_cases r h) as [->|Nr].
    - destruct (exec_history _ _ _ _ Hh Hr) as (lg & Hx).
      destruct (exec_spec _ _ _ _ _ Hx Hr Nd) as (s' & Es' & _ & F' & D1 & D2 & _).
      { intros o Hin. eapply Hops; eauto. }
      assert (s' = sr1) by congruence. subst s'.
      exists (if (z =? -1)%Z then (-1)%Z else (z - 1)%Z). split; [|split; [reflexivity|split; [intros [= X]; congruence|congruence]]].
      destruct (Z.eqb_spec z (-1)); [|destruct (Z.eq_dec z 0)].
      + subst z. apply K; [exact F'|lia|]. rewrite (D1 _ _ Ez); [reflexivity|discriminate].
      + subst z. apply K; [exact F'|lia|]. now rewrite (D2 _ Ez).
      + apply K; [exact F'|lia|]. rewrite (D1 _ _ Ez) by congruence. cbn [ticked]. destruct (Z.leb_spec 0 z); [reflexivity|lia].
    - destruct (hexec_cases b h) as [->|Nb].
      + destruct (exec_history _ _ _ _ Hh Hb) as (lg & Hx).
        destruct (break_execution src p start cstep bins w lg w1 b r sb sr u hh bk i lo Hx) as (s' & Es' & _ & F' & D1 & D2); auto.
        assert (s' = sr1) by congruence. subst s'.
        assert (Ha : acts_now w b i <-> In i (due_members sb)).
        { unfold acts_now. split; [intros (s0 & E & Hi); congruence|eauto]. }
        destruct (in_dec key_dec i (due_members sb)) as [Hi|Hi].
        * destruct (D1 Hi) as (z' & Hz' & E'). exists z'. split; [apply K; [exact F'|lia|exact E']|]. split; [congruence|].
          split; [intros _; split; [auto|]; rewrite Ha; contradiction|congruence].
        * exists z. split; [apply K; [exact F'|exact Hz|now rewrite D2]|]. split; [congruence|]. split; [|congruence].
          intros _. split; [rewrite Ha; contradiction|reflexivity].
      + destruct (happen_timed_by r h w _ w1 sr Hh Nr Hr) as (s' & E' & _ & T).
        * intros c sc o -> Hc Hin. apply (Hops c sc o); [congruence|exact Hc|exact Hin].
        * apply (Huser h). now left.
        * assert (s' = sr1) by congruence. subst s'. destruct (T eq_refl) as [F' T']. exists z.
          split; [apply K; [congruence|exact Hz|now rewrite T']|]. split; [congruence|]. split; congruence.
  Qed.

  (** a cell that does not break down is repaired exactly once, when its counter says so *)
  Lemma repaired_on_time l : forall w z w', repairing w z -> history w l w' -> rescheduled_only_by b w r l ->
    (forall k, ~ acts_at b i w l k) -> forall k, acts_at r i w l k <-> Z.of_nat k = z /\ k < executions r l.
  Proof.
    induction l as [|h l IH]; intros w z w' Hw Hh Hn Hb k.
    { cbn. split; [inversion 1|lia]. }
    apply history_inv in Hh as (w1 & H1 & E1 & H2).
    destruct (repairing_step _ _ _ _ _ Hw H1 Hn) as (Hn1 & z' & Hw1 & D1 & D2 & D3).
    destruct (hexec_cases b h) as [->|Nb].
    - assert (Hi : ~ acts_now w b i) by (intros X; apply (Hb 0), acts_first, X).
      rewrite (acts_at_skip _ _ _ _ _ _ other_exec), (executions_skip _ _ _ other_exec), E1. rewrite (IH w1 z' w'); auto.
      + now rewrite (proj2 (D2 eq_refl) Hi).
      + intros k' X. apply (Hb (S k')), acts_later. now rewrite E1.
    - assert (Hb1 : forall k, ~ acts_at b i w1 l k).
      { intros k' X. apply (Hb k'), acts_skip; [exact Nb|]. now rewrite E1. }
      destruct (hexec_cases r h) as [->|Nr].
      + rewrite executions_exec. specialize (D1 eq_refl). destruct k as [|k].
        * rewrite acts_at_0, (repairing_now _ _ Hw). lia.
        * rewrite acts_at_S, E1, (IH w1 z' w'); auto. destruct Hw as (? & ? & _ & _ & _ & _ & _ & _ & _ & _ & _ & _ & Hz & _).
          destruct (Z.eqb_spec z (-1)); lia.
      + rewrite acts_at_skip, executions_skip, E1 by assumption. rewrite (IH w1 z' w'); auto. now rewrite D3.
  Qed.

  Lemma repairing_later l : forall w z w', repairing w z -> history w l w' -> rescheduled_only_by b w r l -> exists z', repairing w' z'.
  Proof.
    induction l as [|h l IH]; intros w z w' Hw Hh Hn; [inversion Hh; subst; eauto|].
    apply history_inv in Hh as (w1 & H1 & E1 & H2).
    destruct (repairing_step _ _ _ _ _ Hw H1 Hn) as (Hn1 & z' & Hw1 & _). eauto.
  Qed.

  (** a repair has a cause *)
  Lemma repair_cause l : forall w z w', repairing w z -> history w l w' -> rescheduled_only_by b w r l -> acts_now w' r i ->
    (exists l1 l2 wx wy, l = l1 ++ HExec b :: l2 /\ history w l1 wx /\ acts_now wx b i /\ happen (HExec b) wx = (Ok tt, wy) /\
       history wy l2 w' /\ forall k, ~ acts_at r i wy l2 k) \/
    z = Z.of_nat (executions r l) /\ forall k, ~ acts_at r i w l k.
  Proof.
    induction l as [|h l IH]; intros w z w' Hw Hh Hn Ha.
    { inversion Hh; subst. right. apply (repairing_now _ _ Hw) in Ha. split; [exact Ha|]. intros k X. inversion X. }
    apply history_inv in Hh as (w1 & H1 & E1 & H2).
    destruct (repairing_step _ _ _ _ _ Hw H1 Hn) as (Hn1 & z' & Hw1 & D1 & D2 & D3).
    destruct (IH w1 z' w' Hw1 H2 Hn1 Ha) as [(l1 & l2 & wx & wy & -> & X1 & X2 & X3 & X4 & X5)|(Ez & Hno)].
    { left. exists (h :: l1), l2, wx, wy. split; [reflexivity|]. split; [econstructor; eauto|auto]. }
    destruct (hexec_cases b h) as [->|Nb].
    - destruct (D2 eq_refl) as [D4 D5].
      assert (X : acts_now w b i \/ ~ acts_now w b i).
      { destruct Hw as (sb & sr & Hb & _). destruct (in_dec key_dec i (due_members sb)) as [Hi|Hi]; [left|right].
        - exists sb. auto.
        - intros (s0 & E & Hi'). congruence. }
      destruct X as [X|X].
      + left. exists [], l, w, w1. split; [reflexivity|]. split; [constructor|]. auto.
      + right. rewrite (executions_skip _ _ _ other_exec). split; [now rewrite <- (D5 X)|].
        intros k. rewrite (acts_at_skip _ _ _ _ _ _ other_exec), E1. apply Hno.
    - destruct (hexec_cases r h) as [->|Nr].
      + right. specialize (D1 eq_refl). rewrite executions_exec. destruct (Z.eqb_spec z (-1)) as [->|Nz]; [lia|].
        split; [lia|]. intros [|k]; [rewrite acts_at_0, (repairing_now _ _ Hw); lia|]. rewrite acts_at_S, E1. apply Hno.
      + right. rewrite executions_skip by assumption. split; [now rewrite <- D3|]. intros k. rewrite acts_at_skip, E1 by assumption. apply Hno.
  Qed.
End Repair.

(** ** After adding the geography *)

Lemma profile_bins start cstep k bins g n : cyclic_at uganda_profile start cstep k bins g -> (Z.of_nat n * cstep = 24 * hour)%Z -> bins = n.
Proof.
  intros (y & Hl & <- & _) E. destruct (profile_follows_clock _ _ _ _ _ Hl) as [E' _].
  change (profile_duration uganda_profile) with (24 * hour)%Z in E'.
  destruct (live_profile _ _ _ _ _ Hl) as (Hc & _). assert (X : (Z.of_nat (y_bins y) * cstep = Z.of_nat n * cstep)%Z) by congruence.
  apply Z.mul_reg_r in X; lia.
Qed.

Lemma geography_status src w cells cities w' name a hh l logs w2 : add_uganda_geography src true w = (Ok (cells, cities), w') ->
  (name = "cell_break_down" \/ name = "cell_repair_down")%string -> story_named w' name a -> attribute_at w' cells "HEALTH" hh ->
  execute a (after w' l) = (Ok logs, w2) ->
  exists rows, logs = match rows with [] => [] | _ => [("cell_status"%string, mkDf status_cols rows)] end /\
    NoDup (map fst rows) /\ (forall i, In i (map fst rows) <-> acts_now (after w' l) a i) /\ Forall (status_line src (after w' l)) rows /\
    forall k v, holds w2 hh k v <-> (exists t, In (k, [t; k; v]) rows) \/ ~ acts_now (after w' l) a k /\ holds (after w' l) hh k v.
Proof.
  intros H Hname Ha Hhh Hx. destruct (geography_stories _ _ _ _ _ H) as (hh' & t & bins & g & u & h & bk & bk' & b & r & sb & sr & Eb & Er & _ & Hu & Nb & Nr &
    Hb & Ob & Hr & Or & Pb & _ & Pr & Lu & Lh & _). apply Hu in Hhh. subst hh'.
  destruct Pb as (_ & _ & Fb & _ & _ & _ & _ & Ib & _). destruct Pr as (_ & _ & Fr & _ & _ & _ & _ & Ir & _).
  change (st_field (with_ops sb [])) with (st_field sb) in Fb. change (st_field (with_ops sr [])) with (st_field sr) in Fr.
  change (st_ids (with_ops sb [])) with (st_ids sb) in Ib. change (st_ids (with_ops sr [])) with (st_ids sr) in Ir.
  destruct (after_static l w') as [_ St].
  destruct Hname as [-> | ->].
  - apply Nb in Ha. subst a. destruct (St _ _ Hb) as (s & Hs & _ & _ & E3 & _ & _ & _ & _ & E8 & E9).
    apply (status_execution src _ b s u hh logs w2 Hs); [|now apply health_law_later|exact Hx].
    split; [congruence|]. split; [rewrite E9, Ib; apply cell_ids_NoDup|]. exists [OpReset r (Some "CELL_ID"%string)], bk. split; [|eauto].
    rewrite E8, Ob. reflexivity.
  - apply Nr in Ha. subst a. destruct (St _ _ Hr) as (s & Hs & _ & _ & E3 & _ & _ & _ & _ & E8 & E9).
    apply (status_execution src _ r s h hh logs w2 Hs); [|now apply health_law_later|exact Hx].
    split; [congruence|]. split; [rewrite E9, Ir; apply cell_ids_NoDup|]. exists [], bk'. split; [|auto].
    rewrite E8, Or. reflexivity.
Qed.

Lemma plain_ops s P : simple (with_ops s []) P -> simple s P.
Proof. intros H. exact H. Qed.

Lemma geography_member src w cells cities w' i : add_uganda_geography src true w = (Ok (cells, cities), w') -> member w' cells i -> In i cell_ids.
Proof.
  intros H. destruct (does_ok _ _ _ _ _ _ (add_does src w) H) as [_ X]. clear H.
  destruct X as (healths & sizes & assigned & rel & s & sd & gens & st0 & y & bins & g & u & h & bk & bk' & sb & sr & Er & _ & _ & _ & _ & _ & _ & _ & _ & _ & _ & _ & _ & _ & _ & _ & _ & _ & ->).
  injection Er as -> _. intros (po & E & Hi). cbn [w_pops] in E.
  rewrite (nth_end (w_pops w) _ 0 _ eq_refl) in E. cbn [nth_error] in E. injection E as <-. exact Hi.
Qed.

Lemma ceiling_one (lo : Q) : (2 <= lo)%Q -> Qceiling (2 / lo) = 1%Z.
Proof.
  intros H. assert (A : (0 < 2 / lo)%Q) by (apply Qlt_shift_div_l; lra). assert (B : (2 / lo <= 1)%Q) by (apply Qle_shift_div_r; lra).
  assert (C : (Qceiling (2 / lo) <= 1)%Z). { change 1%Z with (Qceiling 1). now apply Qceiling_resp_le. }
  assert (D : (0 < Qceiling (2 / lo))%Z). { pose proof (Qle_ceiling (2 / lo)) as D. rewrite Zlt_Qlt. eapply Qlt_le_trans; [exact A|exact D]. }
  lia.
Qed.

Lemma cell_not_na i : In i cell_ids -> i <> VNA.
Proof. unfold cell_ids. intros H ->. apply in_map_iff in H as (x & [=] & _). Qed.

(** every cell breaks down in every window of one day *)
Lemma geography_breaks src w cells cities w' b i n l1 w1 l2 w2 : add_uganda_geography src true w = (Ok (cells, cities), w') -> positive_laws src ->
  story_named w' "cell_break_down" b -> member w' cells i -> day_of_steps w n ->
  history w' l1 w1 -> history w1 l2 w2 -> nobody_reschedules w' b (l1 ++ l2) -> n <= executions b l2 ->
  exists k, k < n /\ acts_at b i w1 l2 k.
Proof.
  intros H Hpos Hb Hi Hday H1 H2 Hn Hex. destruct (geography_stories _ _ _ _ _ H) as (hh & t & bins & g & u & h & bk & bk' & b' & r & sb & sr & Eb & Er & _ & _ & Nb & _ &
    Hsb & _ & _ & _ & Pb & Cb & _ & _ & _ & Hg & Hc & _). apply Nb in Hb. subst b'. clear Nb.
  destruct Pb as (_ & _ & _ & Tb & Ab & _ & _ & Ib & Sb & _). change (st_ids (with_ops sb [])) with (st_ids sb) in Ib.
  apply plain_ops in Sb. destruct Sb as (_ & Nd & _ & Hact). change (st_tgen (with_ops sb [])) with (st_tgen sb) in Tb. change (st_auto (with_ops sb [])) with (st_auto sb) in Ab.
  pose proof (geography_member _ _ _ _ _ _ H Hi) as Hi'. pose proof (profile_bins _ _ _ _ _ _ Hc Hday) as ->.
  destruct (Cb Hpos i Hi') as (z & Hz & Ez).
  assert (Hw : waiting uganda_profile (c_date (w_clock w)) (c_step (w_clock w)) n b i 5 w' sb).
  { split; [exact Hsb|]. split; [exact Nd|]. split; [exact Ab|]. split; [exists g; rewrite Tb; split; [exact Hg|eexists; exact Hc]|]. split.
    - intros st q Hq. destruct (Hact _ _ _ Hq) as (x & ->). rewrite scaled. destruct (Hpos x) as [Hx _]. lra.
    - exists (Z.of_nat z). split; [|exact Ez]. rewrite ceiling_one by lra. lia. }
  destruct (waiting_later _ _ _ _ b i 5 l1 w' sb w1 ltac:(lra) Hw H1) as (s1 & Hs1 & Nd1 & _ & _ & _ & z1 & Hz1 & Hr1).
  { split; [exact (proj1 Hn)|]. intros x Hx. apply (proj2 Hn), in_or_app. now left. }
  rewrite ceiling_one in Hz1 by lra. exists (Z.to_nat z1). split; [lia|].
  apply (acts_on_time b w1 l2 w2 s1 i (Z.to_nat z1) (Z.to_nat z1) H2); auto.
  - eapply nobody_app; eauto.
  - rewrite Hr1. do 2 f_equal. lia.
  - split; [reflexivity|]. lia.
Qed.

Lemma geography_repairing src w cells cities w' b r i n : add_uganda_geography src true w = (Ok (cells, cities), w') -> positive_laws src ->
  story_named w' "cell_break_down" b -> story_named w' "cell_repair_down" r -> member w' cells i -> day_of_steps w n ->
  r <> b /\ i <> VNA /\
  exists u hh bk, repairing src uganda_profile (c_date (w_clock w)) (c_step (w_clock w)) n b r u hh bk i 100 w' (-1)%Z.
Proof.
  intros H Hpos Hb Hr Hi Hday. destruct (geography_stories _ _ _ _ _ H) as (hh & t & bins & g & u & h & bk & bk' & b' & r' & sb & sr & Eb & Er & _ & _ & Nb & Nr &
    Hsb & Ob & Hsr & Or & Pb & _ & Pr & _ & _ & Hg & Hc & _). apply Nb in Hb. subst b'. apply Nr in Hr. subst r'. clear Nb Nr.
  destruct Pb as (_ & _ & Fb & Tb & Ab & _ & _ & Ib & Sb & _). apply plain_ops in Sb. destruct Sb as (_ & Nd & _).
  destruct Pr as (_ & _ & _ & Tr & Ar & Fr & _ & Ir & Sr & _ & Cr). apply plain_ops in Sr. destruct Sr as (_ & Ndr & _ & Hact).
  pose proof (geography_member _ _ _ _ _ _ H Hi) as Hi'. pose proof (profile_bins _ _ _ _ _ _ Hc Hday) as ->.
  split; [lia|]. split; [now apply cell_not_na|]. exists u, hh, bk, sb, sr. split; [exact Hsb|]. split; [exact Hsr|]. split; [exact Ob|].
  split; [exact Fb|]. split; [exact Nd|]. split; [exact Ndr|]. split; [exact Fr|]. split; [exact Ar|].
  split; [exists g; change (st_tgen (with_ops sr [])) with (st_tgen sr) in Tr; rewrite Tr; split; [exact Hg|eexists; exact Hc]|].
  split; [|split; [lia|exact (Cr eq_refl i Hi')]].
  intros st q Hq. destruct (Hact _ _ _ Hq) as (x & ->). rewrite scaled. destruct (Hpos x) as [_ Hx]. lra.
Qed.

Lemma only_by_app b w a l1 l2 w1 : history w l1 w1 -> rescheduled_only_by b w a (l1 ++ l2) -> rescheduled_only_by b w a l1 /\ rescheduled_only_by b w1 a l2.
Proof.
  intros H [Hops Hu]. split; [split; [exact Hops|intros h Hh; apply Hu, in_or_app; now left]|]. pose proof (history_after _ _ _ H) as ->.
  split; [|intros h Hh; apply Hu, in_or_app; now right].
  intros c s o Nc Ec Hin. destruct (after_static l1 w) as [L St].
  assert (X : exists s0, nth_error (w_stories w) c = Some s0).
  { destruct (nth_error (w_stories w) c) eqn:E; [eauto|]. apply nth_error_None in E.
    assert (c < length (w_stories (after w l1))) by (apply nth_error_Some; congruence). lia. }
  destruct X as (s0 & E0). destruct (St _ _ E0) as (s' & E' & S'). assert (s' = s) by congruence. subst s'.
  eapply Hops; [exact Nc|exact E0|]. destruct S' as (_&_&_&_&_&_&_&Eo&_). now rewrite <- Eo.
Qed.

Lemma geography_repaired src w cells cities w' b r i n l0 w1 w2 l w3 : add_uganda_geography src true w = (Ok (cells, cities), w') -> positive_laws src ->
  story_named w' "cell_break_down" b -> story_named w' "cell_repair_down" r -> member w' cells i -> day_of_steps w n ->
  history w' l0 w1 -> acts_now w1 b i -> happen (HExec b) w1 = (Ok tt, w2) -> history w2 l w3 -> rescheduled_only_by b w' r (l0 ++ l) ->
  exists d, d < n /\ counter w2 r i (Some (Z.of_nat d)) /\
    ((forall k, ~ acts_at b i w2 l k) -> forall k, acts_at r i w2 l k <-> k = d /\ d < executions r l).
Proof.
  intros H Hpos Hb Hr Hi Hday H1 Ha H2 H3 Hn. destruct (geography_repairing _ _ _ _ _ _ _ _ _ H Hpos Hb Hr Hi Hday) as (Nrb & Hna & u & hh & bk & Hw).
  assert (Hlo : (0 < 100)%Q) by reflexivity.
  destruct (only_by_app _ _ _ _ _ _ H1 Hn) as [Hn0 Hn1].
  destruct (repairing_later src _ _ _ _ b r u hh bk i 100 Nrb Hlo Hna l0 w' _ w1 Hw H1 Hn0) as (z & Hw1).
  destruct (repairing_step src _ _ _ _ b r u hh bk i 100 Nrb Hlo Hna w1 z (HExec b) l w2 Hw1 H2) as (Hn2 & z' & Hw2 & _ & D & _).
  { split; [exact (proj1 Hn1)|]. intros h [<-|Hh]; [exact I|now apply (proj2 Hn1)]. }
  specialize (proj1 (D eq_refl) Ha) as Hz. rewrite ceiling_one in Hz by lra. exists (Z.to_nat z'). split; [lia|]. split.
  - destruct Hw2 as (sb & sr & _ & Hsr & _ & _ & _ & _ & _ & _ & _ & _ & _ & E). unfold remaining_of in E.
    destruct (dget i (st_timer sr)) as [[st rr]|] eqn:Ed; [|discriminate]. injection E as ->. exists sr, st. split; [exact Hsr|].
    apply dget_In in Ed. now rewrite Z2Nat.id by lia.
  - intros Hno k. rewrite (repaired_on_time src _ _ _ _ b r u hh bk i 100 Nrb Hlo Hna l w2 z' w3 Hw2 H3 Hn2 Hno k). lia.
Qed.

Lemma geography_repair_cause src w cells cities w' b r i n l w1 : add_uganda_geography src true w = (Ok (cells, cities), w') -> positive_laws src ->
  story_named w' "cell_break_down" b -> story_named w' "cell_repair_down" r -> member w' cells i -> day_of_steps w n ->
  history w' l w1 -> rescheduled_only_by b w' r l -> acts_now w1 r i ->
  exists l1 l2 wx wy, l = l1 ++ HExec b :: l2 /\ history w' l1 wx /\ acts_now wx b i /\ happen (HExec b) wx = (Ok tt, wy) /\
       history wy l2 w1 /\ forall k, ~ acts_at r i wy l2 k.
Proof.
  intros H Hpos Hb Hr Hi Hday H1 Hn Ha. destruct (geography_repairing _ _ _ _ _ _ _ _ _ H Hpos Hb Hr Hi Hday) as (Nrb & Hna & u & hh & bk & Hw).
  destruct (repair_cause src _ _ _ _ b r u hh bk i 100 Nrb ltac:(reflexivity) Hna l w' _ w1 Hw H1 Hn Ha) as [X|[X _]]; [exact X|lia].
Qed.
