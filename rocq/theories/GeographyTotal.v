(** The stories of the geography never raise. *)
From Verif Require Import Base BaseFacts Rng RngFacts Utils UtilsFacts Relationship RelationshipFacts SpecRelationship RelationshipProps
  Frame Gens GensProps Clock SpecClock ClockProps Attribute AttributeFacts World Story Ops OpsFacts Fs Circus SpecStory StoryFacts StoryExec
  StoryProps StoryStates StoryDelay SpecOps OpsProps OpsColumns OpsMore StoryMore SpecWorld SpecPopulation PopProps PopMore SpecAct ActFacts GensKept WorldProps
  Geography SpecGeography GeographyRun GeographyBuild GeographyLog SpecWait StoryGap GeographyProps GeographyRepair.
From Coq Require Import Permutation Lqa Qround.
Local Open Scope nat_scope.

Lemma column_runs d n vs : NoDup (df_index d) -> length vs = df_len d ->
  exists out d', column d n vs = Ok out /\ add_columns JLeft d out = Ok d'.
Proof.
  intros Nd L. unfold column. rewrite (proj2 (Nat.eqb_eq _ _) L). eexists. unfold add_columns, merge_index. cbn [df_index df_rows].
  assert (Li : length (df_index d) = length (map (fun v : val => [v]) vs)). { rewrite map_length, L. unfold df_index, df_len. now rewrite map_length. }
  assert (Ei : df_index (mkDf [n] (combine (df_index d) (map (fun v : val => [v]) vs))) = df_index d) by (apply map_fst_combine; lia).
  rewrite Ei. rewrite (proj2 (nodupb_NoDup (df_index d)) Nd). cbn [negb orb]. eauto.
Qed.

Lemma generate_runs g n d w vs gens' : NoDup (df_index d) -> random_values (w_gens w) g (df_len d) None = Ok (vs, gens') -> length vs = df_len d ->
  exists d', run_op (OpGenerate g n None) d w = (Ok (d', []), set_gens gens' w).
Proof.
  intros Nd Ev L. destruct (column_runs d n vs Nd L) as (out & d' & E1 & E2). exists d'. cbn [run_op]. unfold transformed, bindM, lift, get, modify, ret.
  rewrite Ev. rewrite E1, E2. reflexivity.
Qed.

Lemma timestamp_runs n fmt d w : NoDup (df_index d) -> (second <= c_step (w_clock w))%Z ->
  exists d' c', run_op (OpTimestamp n true fmt) d w = (Ok (d', []), set_clock c' w) /\ c_step c' = c_step (w_clock w).
Proof.
  intros Nd Hs. destruct (timestamps_total (w_clock w) (df_len d) Hs) as (ts & c' & Et).
  destruct (timestamps_in_step _ _ _ _ Et) as (L & _ & Es & _).
  destruct (column_runs d n (map fmt ts) Nd ltac:(now rewrite map_length)) as (out & d' & E1 & E2). exists d', c'. split; [|exact Es].
  cbn [run_op]. unfold transformed, bindM, lift, get, modify, ret. rewrite Et, E1, E2. reflexivity.
Qed.

Lemma run_list_forward o ops d prev w d1 l1 w1 all : run_op o d w = (Ok (d1, l1), w1) -> merge_dicts [prev; l1] (Some df_concat) = Ok all ->
  run_list run_op (o :: ops) d prev w = run_list run_op ops d1 all w1.
Proof. intros H M. cbn [run_list]. unfold bindM at 1. rewrite H. unfold bindM at 1, lift. now rewrite M. Qed.

(** ** What the steps of an execution leave alone *)
Definition kept_state (_ : nat) (s s' : story) : Prop := static s s' /\ forall i, state_of s' i = state_of s i.
Definition mild (hh : nat) (w w' : world) : Prop :=
  stories_rel kept_state w w' /\ (single_valued w hh -> single_valued w' hh) /\ c_step (w_clock w') = c_step (w_clock w).
Lemma kept_state_refl a s : kept_state a s s. Proof. split; [apply static_refl|reflexivity]. Qed.
Lemma kept_state_trans a s1 s2 s3 : kept_state a s1 s2 -> kept_state a s2 s3 -> kept_state a s1 s3.
Proof. intros [A1 A2] [B1 B2]. split; [eapply static_trans; eauto|]. intros i. now rewrite B2. Qed.
Lemma mild_trans hh w1 w2 w3 : mild hh w1 w2 -> mild hh w2 w3 -> mild hh w1 w3.
Proof.
  intros (A1 & A2 & A3) (B1 & B2 & B3). split; [eapply (sr_trans kept_state); [exact kept_state_trans|exact A1|exact B1]|]. split; [auto|congruence].
Qed.
Lemma mild_put hh a s s' w tg : nth_error (w_stories w) a = Some s -> kept_state a s s' ->
  mild hh w (set_stories (set_nth a s' (w_stories w)) (set_tgens tg w)).
Proof.
  intros Hs K. split; [|split; [auto|reflexivity]]. split; [cbn; now rewrite set_nth_length|]. cbn [w_stories set_stories].
  intros b sb Hb. destruct (Nat.eq_dec b a) as [->|N].
  - assert (sb = s) by congruence. subst sb. exists s'. split; [eapply nth_put_same; eauto|exact K].
  - exists sb. split; [rewrite nth_put_other by auto; exact Hb|apply kept_state_refl].
Qed.
Lemma mild_tick hh a ids w w' : story_tick a ids w = (Ok tt, w') -> mild hh w w'.
Proof.
  intros H. apply story_tick_ok in H as (s & s' & Hs & E & ->). destruct (tick_spec _ _ _ E) as (S & _ & K & _).
  pose proof (mild_put hh a s s' w (w_tgens w) Hs (conj S K)) as M. destruct w. exact M.
Qed.
Lemma mild_reset hh a ids w w' : story_reset a ids w = (Ok tt, w') -> mild hh w w'.
Proof.
  intros H. apply story_reset_ok in H as (s & s' & g & g' & Hs & _ & E & ->). destruct (reset_spec _ _ _ _ _ E) as (S & _ & K & _).
  now apply mild_put with (s := s).
Qed.
Lemma mild_unforced hh a s w : nth_error (w_stories w) a = Some s -> mild hh w (unforced a s w).
Proof.
  intros Hs. pose proof (mild_put hh a s (with_forced s []) w (w_tgens w) Hs) as M. destruct w. apply M. split; [repeat split|reflexivity].
Qed.
Lemma mild_clock hh c w : c_step c = c_step (w_clock w) -> mild hh w (set_clock c w).
Proof. intros E. split; [apply sr_same; [apply kept_state_refl|reflexivity]|]. split; [auto|exact E]. Qed.
Lemma mild_gens hh g w : mild hh w (set_gens g w).
Proof. split; [apply sr_same; [apply kept_state_refl|reflexivity]|]. split; [auto|reflexivity]. Qed.
Lemma mild_refl hh w : mild hh w w.
Proof. split; [apply sr_same; [apply kept_state_refl|reflexivity]|]. auto. Qed.

(** ** The chain of operations *)
Section Total.
  Context (src : sources) (p : timer_profile) (start cstep : Z) (bins hh : nat) (P : Q -> Prop).
  Notation at_ := (tg_at (cycling p start cstep bins)).

  (** The members of story [a] are in the default state, and it can reset its timers. *)
  Definition calm (ids : list val) (w : world) (a : nat) (s : story) : Prop :=
    nth_error (w_stories w) a = Some s /\ simple s P /\ st_ids s = ids /\ (forall i, In i ids -> state_of s i = Some "default"%string) /\ at_ (st_tgen s) w.

  Lemma reset_runs_calm ids w a s l : calm ids w a s -> NoDup l -> incl l ids ->
    exists w', story_reset a (Some l) w = (Ok tt, w').
  Proof.
    intros (Hs & Hsi & Hids & _ & g & Hg & k & Hc) Nd Hin.
    destruct (reset_runs s P p start cstep k bins g (Some l) Hsi Hc) as (s' & g' & E & _); [split; [exact Nd|now rewrite Hids]|].
    unfold story_reset, bindM, deref. rewrite Hs, Hg. unfold lift. rewrite E. eexists. reflexivity.
  Qed.
  Lemma tick_runs_calm ids w a s l : calm ids w a s -> incl l ids -> exists w', story_tick a l w = (Ok tt, w').
  Proof.
    intros (Hs & _ & Hids & _) Hin. destruct (tick_runs s l) as (s' & E); [intros i Hi; rewrite Hids; auto|].
    unfold story_tick, bindM, deref. rewrite Hs. unfold lift. rewrite E. eexists. reflexivity.
  Qed.

  Lemma mild_calm ids w w' a s : mild hh w w' -> at_ (st_tgen s) w' -> calm ids w a s -> exists s', calm ids w' a s' /\ static s s'.
  Proof.
    intros ((_ & M) & _) Hg (Hs & Hsi & Hids & Hst & _). destruct (M _ _ Hs) as (s' & Hs' & S & K). exists s'. split; [|exact S].
    split; [exact Hs'|]. split; [eapply simple_static; eauto|]. destruct S as (_&_&_&S4&_&_&_&_&S9).
    split; [congruence|]. split; [intros i Hi; now rewrite K, Hst|now rewrite S4].
  Qed.

  Lemma status_chain_runs u extra a bk due ids w s : calm ids w a s -> NoDup due -> due <> [] -> incl due ids ->
    (extra = [] \/ exists c sc, extra = [OpReset c (Some "CELL_ID"%string)] /\ calm ids w c sc) ->
    health_law src w u -> single_valued w hh -> (second <= c_step (w_clock w))%Z ->
    exists d l w', run_chain ([OpGenerate u "NEW_HEALTH_LEVEL" None; OpAttrUpdate hh "CELL_ID" "NEW_HEALTH_LEVEL"] ++ extra ++
      [OpTimestamp "TIME" true (time_format src); field_logger "cell_status" (Some status_cols) []; OpBack a bk])
      (init_story_data "CELL_ID" due) w = (Ok (d, l), w') /\ mild hh w w'.
  Proof.
    intros Ha Nd Hd Hin Hex (st & Hg) Hsv Hsec. unfold run_chain. cbn [app]. set (d0 := init_story_data "CELL_ID" due).
    assert (Nd0 : NoDup (df_index d0)). { unfold d0, df_index, init_story_data. cbn [df_rows]. rewrite map_map, map_id. exact Nd. }
    assert (L0 : df_len d0 = length due). { unfold d0, df_len, init_story_data. cbn [df_rows]. now rewrite map_length. }
    destruct (other_step (beta_1_999 src) st (Z.of_nat (df_len d0)) ltac:(lia)) as (vs & st1 & Lv & _ & E1). rewrite Nat2Z.id in Lv.
    assert (Ev : random_values (w_gens w) u (df_len d0) None = Ok (vs, set_nth u (GNumpy (NpOther (beta_1_999 src)) st1 None) (w_gens w))).
    { cbn [random_values]. unfold gen_generate. cbn [heap_generate]. rewrite Hg. rewrite E1. reflexivity. }
    destruct (generate_runs u "NEW_HEALTH_LEVEL" d0 w _ _ Nd0 Ev Lv) as (d1 & R1).
    pose proof R1 as R1'. apply generate_adds in R1'; [|cbn; intuition discriminate]. destruct R1' as (vs' & gens' & Ev' & (Ec & _ & Er) & _).
    assert (vs' = vs) by (unfold df_len in Ev; congruence). subst vs'. clear Ev' gens'.
    unfold d0 in Ec, Er. cbn [df_cols df_rows init_story_data app] in Ec, Er. rewrite L0 in Lv.
    assert (Hrows : df_rows d1 = map (fun x => (fst x, [fst x; snd x])) (combine due vs)).
    { rewrite Er, combine_map_l, map_map. apply map_ext. intros [i v]. reflexivity. }
    assert (Hcol : column_of d1 "CELL_ID" = due).
    { unfold column_of. rewrite Ec, Hrows, map_map. cbn. rewrite <- (map_fst_combine due vs) at 2 by lia. reflexivity. }
    assert (Hi1 : df_index d1 = due).
    { unfold df_index. rewrite Hrows, map_map. cbn [fst]. apply map_fst_combine. lia. }
    assert (Rect1 : rectangular d1).
    { split; [rewrite Ec; repeat constructor; cbn; intuition discriminate|]. intros row Hrow. rewrite Hrows in Hrow. apply in_map_iff in Hrow as ([i v] & <- & _). now rewrite Ec. }
    erewrite run_list_forward; [|exact R1|reflexivity]. set (w1 := set_gens _ w).
    assert (M1 : mild hh w w1) by apply mild_gens.
    (* the attribute *)
    destruct (act_attr_update_runs hh "CELL_ID" "NEW_HEALTH_LEVEL" d1 w1) as (w2 & R2); [exact Hsv|exact Rect1|rewrite Ec; cbn; auto..|now rewrite Hcol|].
    erewrite run_list_forward; [|exact R2|reflexivity].
    destruct (act_attr_update _ _ _ _ _ _ _ _ R2 Hsv) as (_ & _ & [[Ho _] _] & Hsv2 & _ & _).
    assert (T2 : w_tgens w2 = w_tgens w) by (rewrite Ho; reflexivity).
    assert (M2 : mild hh w w2).
    { eapply mild_trans; [exact M1|]. rewrite Ho. split; [apply sr_same; [apply kept_state_refl|reflexivity]|]. split; [|reflexivity]. intros _. rewrite Ho in Hsv2. exact Hsv2. }
    clear Hsv2 Ho M1.
    (* the timers of the other story *)
    assert (X : exists w3, mild hh w w3 /\ forall ops, run_list run_op (extra ++ ops) d1 [] w2 = run_list run_op ops d1 [] w3).
    { destruct Hex as [-> |(c & sc & -> & Hc)]; [exists w2; split; [exact M2|reflexivity]|].
      destruct (mild_calm ids w w2 c sc M2) as (sc2 & Hc2 & _); [destruct Hc as (_ & _ & _ & _ & Hg'); unfold tg_at; now rewrite T2|exact Hc|].
      destruct (reset_runs_calm ids w2 c sc2 (uniq (map snd (dropna (map (fun row => (fst row, cell (df_cols d1) (snd row) "CELL_ID")) (df_rows d1))))) Hc2) as (w3 & E3).
      - apply uniq_NoDup.
      - intros i Hi. rewrite uniq_In in Hi. apply in_map_iff in Hi as ([k v] & E & Hk). cbn [snd] in E. subst v. unfold dropna in Hk. apply filter_In in Hk as [Hk _].
        apply Hin. rewrite <- Hcol. unfold column_of. apply in_map_iff in Hk as (row & E & Hr). injection E as _ <-. apply in_map_iff. eauto.
      - exists w3. split; [eapply mild_trans; [exact M2|eapply mild_reset; exact E3]|]. intros ops. cbn [app].
        assert (R3 : run_op (OpReset c (Some "CELL_ID"%string)) d1 w2 = (Ok (d1, []), w3)).
        { cbn [run_op]. unfold side_effect. unfold bindM at 1. unfold bindM at 1. rewrite (get_col_runs d1 "CELL_ID" Rect1) by (rewrite Ec; cbn; auto). cbn [lift].
          rewrite E3. reflexivity. }
        erewrite run_list_forward; [|exact R3|reflexivity]; reflexivity. }
    destruct X as (w3 & M3 & X). rewrite X. clear X.
    (* the time *)
    assert (S3 : (second <= c_step (w_clock w3))%Z). { destruct M3 as (_ & _ & ->). exact Hsec. }
    destruct (timestamp_runs "TIME" (time_format src) d1 w3 ltac:(now rewrite Hi1) S3) as (d4 & c' & R4 & Ecs).
    erewrite run_list_forward; [|exact R4|reflexivity].
    pose proof R4 as R4'. apply timestamp_adds in R4'; [|rewrite Ec; cbn; intuition discriminate]. destruct R4' as (dates & c2 & _ & (Ec4 & Lt & Er4) & _).
    assert (M4 : mild hh w (set_clock c' w3)) by (eapply mild_trans; [exact M3|now apply mild_clock]).
    assert (Hi4 : df_index d4 = due).
    { unfold df_index. rewrite Er4, map_map. cbn [fst]. rewrite <- Hi1. unfold df_index. rewrite <- map_map with (f := fst) (g := fst).
      rewrite map_fst_combine by lia. reflexivity. }
    rewrite Ec in Ec4. cbn [app] in Ec4.
    (* the log *)
    pose proof (log_of_columns "cell_status" status_cols d4 (set_clock c' w3)) as R5.
    erewrite run_list_forward; [|apply R5|reflexivity].
    2:{ rewrite Ec4. repeat constructor; cbn; intuition discriminate. }
    2:{ rewrite Ec4. intros x Hx. cbn in *. intuition. }
    2:{ discriminate. }
    (* back to the default state *)
    assert (R6 : run_op (OpBack a bk) d4 (set_clock c' w3) = (Ok (d4, []), set_clock c' w3)).
    { destruct Ha as (Hs & _ & Hids & Hst & _). destruct M4 as ((_ & M4) & _). destruct (M4 _ _ Hs) as (s4 & Hs4 & S4 & K4).
      cbn [run_op]. unfold side_effect, back_to_default. unfold bindM at 1. unfold bindM at 1. unfold deref. rewrite Hs4. cbn [fst snd].
      destruct S4 as (_&_&_&_&_&_&_&_&S9). rewrite known_In; [|intros i Hi; rewrite S9, Hids, Hi4 in *; auto].
      cbn [negb]. assert (F : filter (fun i => match state_of s4 i with Some st => negb (keqb st "default"%string) | None => false end) (df_index d4) = []).
      { rewrite Hi4. clear -Hin Hst K4. induction due as [|i due IH]; [reflexivity|]. cbn [filter]. rewrite K4, Hst by (apply Hin; now left).
        rewrite keqb_refl. cbn [negb]. apply IH. intros j Hj. apply Hin. now right. }
      rewrite F. reflexivity. }
    erewrite run_list_forward; [|exact R6|reflexivity]. cbn [run_list]. eexists _, _, _. split; [reflexivity|exact M4].
  Qed.
End Total.

Lemma status_runs src p start cstep bins hh P ids w a s u : calm p start cstep bins P ids w a s -> status_story src hh a s u ->
  (forall c, In (OpReset c (Some "CELL_ID"%string)) (st_ops s) -> exists sc, calm p start cstep bins P ids w c sc) ->
  health_law src w u -> single_valued w hh -> (second <= c_step (w_clock w))%Z ->
  exists l w', execute a w = (Ok l, w') /\ mild hh w w'.
Proof.
  intros Ha (Hf & Nd & extra & bk & Hops & Hex) Hc Hlaw Hsv Hsec. pose proof Ha as (Hs & Hsi & Hids & Hst & Ht).
  assert (Mu : mild hh w (unforced a s w)) by now apply mild_unforced.
  assert (Hdue : incl (due_members s) ids).
  { intros i Hi. rewrite <- Hids. unfold due_members in Hi. unfold st_ids, dkeys. apply in_map_iff in Hi as (x & <- & Hx). apply filter_In in Hx as [Hx _]. now apply in_map. }
  assert (Hina : incl (snd (active_inactive_ids s)) ids).
  { intros i Hi. rewrite <- Hids. cbn [active_inactive_ids snd] in Hi. unfold st_ids, dkeys. apply in_map_iff in Hi as (x & <- & Hx). apply filter_In in Hx as [Hx _]. now apply in_map. }
  assert (Hu : forall b sb, calm p start cstep bins P ids w b sb -> exists sb', calm p start cstep bins P ids (unforced a s w) b sb').
  { intros b sb Hb. destruct (mild_calm p start cstep bins hh P ids w (unforced a s w) b sb Mu) as (sb' & X & _); eauto. now destruct Hb as (_ & _ & _ & _ & Hg). }
  assert (Ha0 : calm p start cstep bins P ids (unforced a s w) a (with_forced s [])).
  { split; [unfold unforced; cbn [w_stories set_stories]; eapply nth_put_same; eauto|]. split; [exact Hsi|]. split; [exact Hids|]. split; [exact Hst|exact Ht]. }
  destruct (due_members s) as [|i0 due0] eqn:Ed.
  - destruct (tick_runs_calm _ _ _ _ _ _ _ _ _ (snd (active_inactive_ids s)) Ha0 Hina) as (w1 & E1).
    exists [], w1. split; [|eapply mild_trans; [exact Mu|eapply mild_tick; exact E1]].
    unfold execute. unfold bindM at 1, deref. rewrite Hs. unfold bindM at 1. change (put_story a (with_forced s []) w) with (Ok tt, unforced a s w). cbv beta iota.
    unfold active_inactive_ids in *. change (map fst (filter is_due (st_timer s))) with (due_members s). rewrite Ed. cbn [snd] in E1.
    unfold bindM at 1, ret at 1. unfold bindM at 1. rewrite E1. reflexivity.
  - rewrite <- Ed in *. assert (Nde : due_members s <> []) by (rewrite Ed; discriminate).
    destruct (status_chain_runs src p start cstep bins hh P u extra a bk (due_members s) ids (unforced a s w) (with_forced s [])) as (d & l & w1 & Ech & M1);
      [exact Ha0|now apply NoDup_due|exact Nde|exact Hdue| |exact Hlaw|exact Hsv|exact Hsec|].
    { destruct Hex as [-> |(c & ->)]; [now left|]. right. destruct (Hc c) as (sc & Hsc); [rewrite Hops; cbn; auto|].
      destruct (Hu c sc Hsc) as (sc' & Hsc'). eauto. }
    assert (Ht1 : tg_at (cycling p start cstep bins) (st_tgen s) w1).
    { pose proof (chain_tg _ (cycling_gen p start cstep bins) (st_tgen s) (st_ops s) (init_story_data "CELL_ID" (due_members s)) (unforced a s w)) as K. unfold tg_kept in K.
      rewrite Hops, Ech in K. apply K. exact Ht. }
    destruct (mild_calm p start cstep bins hh P ids _ w1 a (with_forced s []) M1 Ht1 Ha0) as (s1 & Ha1 & S1).
    assert (X : exists w2, (if st_auto s then story_reset a (Some (due_members s)) else story_tick a (due_members s)) w1 = (Ok tt, w2) /\ mild hh w1 w2 /\
                exists s2, calm p start cstep bins P ids w2 a s2).
    { destruct (st_auto s).
      - destruct (reset_runs_calm _ _ _ _ _ _ _ _ _ (due_members s) Ha1) as (w2 & E2); [now apply NoDup_due|exact Hdue|].
        exists w2. split; [exact E2|]. assert (M2 : mild hh w1 w2) by (eapply mild_reset; exact E2). split; [exact M2|].
        destruct (mild_calm p start cstep bins hh P ids w1 w2 a s1 M2) as (s2 & Ha2 & _); [|exact Ha1|eauto].
        pose proof (tg_reset _ (cycling_gen p start cstep bins) (st_tgen s1) a (Some (due_members s)) w1) as K. unfold tg_kept in K. rewrite E2 in K. apply K.
        now destruct Ha1 as (_ & _ & _ & _ & Hg).
      - destruct (tick_runs_calm _ _ _ _ _ _ _ _ _ (due_members s) Ha1 Hdue) as (w2 & E2).
        exists w2. split; [exact E2|]. assert (M2 : mild hh w1 w2) by (eapply mild_tick; exact E2). split; [exact M2|].
        destruct (mild_calm p start cstep bins hh P ids w1 w2 a s1 M2) as (s2 & Ha2 & _); [|exact Ha1|eauto].
        pose proof (tick_ck p start cstep bins (st_tgen s1) a (due_members s) w1) as K. unfold tg_kept in K. rewrite E2 in K. apply K.
        now destruct Ha1 as (_ & _ & _ & _ & Hg). }
    destruct X as (w2 & E2 & M2 & s2 & Ha2).
    destruct (tick_runs_calm _ _ _ _ _ _ _ _ _ (snd (active_inactive_ids s)) Ha2 Hina) as (w3 & E3).
    exists l, w3. split; [|eapply mild_trans; [exact Mu|]; eapply mild_trans; [exact M1|]; eapply mild_trans; [exact M2|eapply mild_tick; exact E3]].
    unfold execute. unfold bindM at 1, deref. rewrite Hs. unfold bindM at 1. change (put_story a (with_forced s []) w) with (Ok tt, unforced a s w). cbv beta iota.
    unfold active_inactive_ids in *. change (map fst (filter is_due (st_timer s))) with (due_members s). cbn [snd] in E3.
    rewrite Hf, Hops. rewrite Ed in *. rewrite <- Ed in *.
    unfold bindM at 1. unfold bindM at 1. rewrite Ech. unfold bindM at 1. rewrite E2. unfold ret at 1. unfold bindM at 1. rewrite E3. reflexivity.
Qed.

(** ** Runs of the geography *)
Section Ready.
  Context (src : sources) (p : timer_profile) (start cstep : Z) (bins hh b r u h bk bk' : nat) (P : Q -> Prop) (ids : list val).
  Notation calm_ := (calm p start cstep bins P ids).
  Definition ready (w : world) : Prop := exists sb sr, calm_ w b sb /\ calm_ w r sr /\
    st_ops sb = break_down_ops src u hh r ++ [OpBack b bk] /\ st_field sb = "CELL_ID"%string /\
    st_ops sr = repair_ops src h hh ++ [OpBack r bk'] /\ st_field sr = "CELL_ID"%string /\
    health_law src w u /\ health_law src w h /\ single_valued w hh /\ (second <= c_step (w_clock w))%Z.

  Lemma ready_mild x w w1 : happen x w = (Ok tt, w1) -> mild hh w w1 -> ready w -> ready w1.
  Proof.
    intros Hx M (sb & sr & Hb & Hr & Ob & Fb & Or & Fr & Lu & Lh & Hsv & Hsec).
    assert (K : forall a s, calm_ w a s -> exists s', calm_ w1 a s' /\ static s s').
    { intros a s Ha. apply (mild_calm p start cstep bins hh P ids w w1 a s M); [|exact Ha].
      pose proof (happen_ck p start cstep bins (st_tgen s) x w) as T. unfold tg_kept in T. rewrite Hx in T. apply T. now destruct Ha as (_ & _ & _ & _ & Hg). }
    destruct (K _ _ Hb) as (sb' & Hb' & _ & _ & B3 & _ & _ & _ & _ & B8 & _). destruct (K _ _ Hr) as (sr' & Hr' & _ & _ & R3 & _ & _ & _ & _ & R8 & _).
    assert (L : forall v, health_law src w v -> health_law src w1 v).
    { intros v Hv. pose proof (health_law_later src w [x] v Hv) as X. cbn [after] in X. now rewrite Hx in X. }
    destruct M as (_ & M2 & M3). exists sb', sr'. rewrite B8, B3, R8, R3. repeat (split; [now auto|]). now rewrite M3.
  Qed.

  Lemma ready_step x w : ready w -> x = HExec b \/ x = HExec r \/ x = HClock -> exists w1, happen x w = (Ok tt, w1) /\ ready w1.
  Proof.
    intros Hw Hx. assert (X : exists w1, happen x w = (Ok tt, w1) /\ mild hh w w1).
    { destruct Hw as (sb & sr & Hb & Hr & Ob & Fb & Or & Fr & Lu & Lh & Hsv & Hsec). destruct Hx as [-> |[-> | ->]].
      - destruct (status_runs src p start cstep bins hh P ids w b sb u Hb) as (l & w1 & E & M); auto.
        + split; [exact Fb|]. split; [apply Hb|]. exists [OpReset r (Some "CELL_ID"%string)], bk. split; [rewrite Ob; reflexivity|eauto].
        + intros c Hc. rewrite Ob in Hc. cbn in Hc. repeat (destruct Hc as [Hc|Hc]; [try discriminate|]); [|contradiction]. injection Hc as <-. eauto.
        + exists w1. cbn [happen]. rewrite E. auto.
      - destruct (status_runs src p start cstep bins hh P ids w r sr h Hr) as (l & w1 & E & M); auto.
        + split; [exact Fr|]. split; [apply Hr|]. exists [], bk'. split; [rewrite Or; reflexivity|auto].
        + intros c Hc. rewrite Or in Hc. cbn in Hc. repeat (destruct Hc as [Hc|Hc]; [discriminate|]). contradiction.
        + exists w1. cbn [happen]. rewrite E. auto.
      - exists (snd (happen HClock w)). split; [reflexivity|]. cbn [happen snd]. split; [apply sr_same; [apply kept_state_refl|apply increment_stories]|]. split; [auto|reflexivity]. }
    destruct X as (w1 & E & M). exists w1. split; [exact E|]. eapply ready_mild; eauto.
  Qed.

  Lemma ready_history l : forall w, ready w -> Forall (fun x => x = HExec b \/ x = HExec r \/ x = HClock) l -> exists w1, history w l w1 /\ ready w1.
  Proof.
    induction l as [|x l IH]; intros w Hw F; [exists w; split; [constructor|exact Hw]|]. inversion F; subst.
    destruct (ready_step x w Hw) as (w1 & E & Hw1); [assumption|]. destruct (IH w1 Hw1) as (w2 & E2 & Hw2); [assumption|].
    exists w2. split; [econstructor; eauto|exact Hw2].
  Qed.
End Ready.

Lemma geography_ready src w cells cities w' b r : add_uganda_geography src true w = (Ok (cells, cities), w') ->
  story_named w' "cell_break_down" b -> story_named w' "cell_repair_down" r -> (second <= c_step (w_clock w))%Z ->
  exists p start cstep bins hh u h bk bk' P ids, ready src p start cstep bins hh b r u h bk bk' P ids w'.
Proof.
  intros H Hb Hr Hsec. destruct (geography_built _ _ _ _ _ H) as (He & _ & _ & _ & _ & (a0 & Ha0 & Hsv & _) & _).
  destruct (geography_stories _ _ _ _ _ H) as (hh & t & bins & g & u & h & bk & bk' & b' & r' & sb & sr & Eb & Er & _ & Uh & Nb & Nr &
    Hsb & Ob & Hsr & Or & Pb & _ & Pr & Lu & Lh & Hg & Hc & _). apply Nb in Hb. subst b'. apply Nr in Hr. subst r'. clear Nb Nr. apply Uh in Ha0. subst a0.
  destruct Pb as (_ & _ & Fb & Tb & _ & _ & _ & Ib & Sb & Db & _). apply plain_ops in Sb.
  destruct Pr as (_ & _ & Fr & Tr & _ & _ & _ & Ir & Sr & Dr & _). apply plain_ops in Sr.
  exists uganda_profile, (c_date (w_clock w)), (c_step (w_clock w)), bins, hh, u, h, bk, bk', (fun _ => True), cell_ids, sb, sr.
  assert (T : forall s, st_tgen s = t -> tg_at (cycling uganda_profile (c_date (w_clock w)) (c_step (w_clock w)) bins) (st_tgen s) w').
  { intros s ->. exists g. split; [exact Hg|]. eexists. exact Hc. }
  split; [split; [exact Hsb|]; split; [eapply simple_weaken; [|exact Sb]; auto|]; split; [exact Ib|]; split; [exact Db|now apply T]|].
  split; [split; [exact Hsr|]; split; [eapply simple_weaken; [|exact Sr]; auto|]; split; [exact Ir|]; split; [exact Dr|now apply T]|].
  split; [exact Ob|]. split; [exact Fb|]. split; [exact Or|]. split; [exact Fr|]. split; [exact Lu|]. split; [exact Lh|]. split; [exact Hsv|].
  destruct He as (_ & _ & _ & _ & _ & _ & _ & _ & _ & Es & _). now rewrite Es.
Qed.

Lemma geography_history src w cells cities w' b r l : add_uganda_geography src true w = (Ok (cells, cities), w') ->
  story_named w' "cell_break_down" b -> story_named w' "cell_repair_down" r -> (second <= c_step (w_clock w))%Z ->
  Forall (fun x => x = HExec b \/ x = HExec r \/ x = HClock) l -> exists w1, history w' l w1.
Proof.
  intros H Hb Hr Hs F. destruct (geography_ready _ _ _ _ _ _ _ H Hb Hr Hs) as (p & start & cstep & bins & hh & u & h & bk & bk' & P & ids & R).
  destruct (ready_history _ _ _ _ _ _ _ _ _ _ _ _ _ _ l w' R F) as (w1 & X & _). eauto.
Qed.

(** ** Nothing else reschedules the stories of the geography *)
Definition untouched (a : nat) (l : list happening) : Prop :=
  forall h, In h l -> match h with HForce c _ | HReset c _ | HTick c _ => c <> a | _ => True end.

Lemma geography_nobody src w cells cities w' b l : add_uganda_geography src true w = (Ok (cells, cities), w') -> story_named w' "cell_break_down" b ->
  (forall c s o, nth_error (w_stories w) c = Some s -> In o (st_ops s) -> reschedules b o = false) -> untouched b l -> nobody_reschedules w' b l.
Proof.
  intros H Hb Ho Hl. split; [|exact Hl].
  destruct (geography_stories _ _ _ _ _ H) as (hh & t & bins & g & u & h & bk & bk' & b' & r & sb & sr & Eb & Er & _ & _ & Nb & _ &
    Hsb & Ob & Hsr & Or & _ & _ & _ & _ & _ & _ & _ & Rest). apply Nb in Hb. subst b'. intros c s o Hs Hi.
  destruct (Nat.eq_dec c b) as [-> |N1].
  - assert (s = sb) by congruence. subst s. rewrite Ob in Hi. cbn in Hi.
    repeat (destruct Hi as [<-|Hi]; [try reflexivity; cbn; apply Nat.eqb_neq; lia|]). contradiction.
  - destruct (Nat.eq_dec c r) as [-> |N2]; [|eapply Ho; eauto].
    assert (s = sr) by congruence. subst s. rewrite Or in Hi. cbn in Hi. repeat (destruct Hi as [<-|Hi]; [reflexivity|]). contradiction.
Qed.

Lemma geography_only src w cells cities w' b r l : add_uganda_geography src true w = (Ok (cells, cities), w') ->
  story_named w' "cell_break_down" b -> story_named w' "cell_repair_down" r ->
  (forall c s o, nth_error (w_stories w) c = Some s -> In o (st_ops s) -> reschedules r o = false) -> untouched r l -> rescheduled_only_by b w' r l.
Proof.
  intros H Hb Hr Ho Hl. split; [|exact Hl].
  destruct (geography_stories _ _ _ _ _ H) as (hh & t & bins & g & u & h & bk & bk' & b' & r' & sb & sr & Eb & Er & _ & _ & Nb & Nr &
    Hsb & Ob & Hsr & Or & _ & _ & _ & _ & _ & _ & _ & Rest). apply Nb in Hb. subst b'. apply Nr in Hr. subst r'. intros c s o N Hs Hi.
  destruct (Nat.eq_dec c r) as [-> |N2]; [|eapply Ho; eauto].
  assert (s = sr) by congruence. subst s. rewrite Or in Hi. cbn in Hi. repeat (destruct Hi as [<-|Hi]; [reflexivity|]). contradiction.
Qed.

Lemma geography_named src w cells cities w' : add_uganda_geography src true w = (Ok (cells, cities), w') ->
  story_named w' "cell_break_down" (length (w_stories w)) /\ story_named w' "cell_repair_down" (S (length (w_stories w))).
Proof.
  intros H. destruct (geography_stories _ _ _ _ _ H) as (hh & t & bins & g & u & h & bk & bk' & b' & r' & sb & sr & Eb & Er & _ & _ & Nb & Nr & _).
  split; [apply Nb|apply Nr]; congruence.
Qed.

Lemma uganda_starts c : (0 < c_step c)%Z -> (c_step c | hour)%Z -> (c_step c | c_date c)%Z -> can_start uganda_profile c.
Proof.
  intros H1 H2 H3. assert (H4 : (c_step c | monday)%Z) by (apply (Z.divide_trans _ hour); [exact H2|]; exists 406992%Z; reflexivity).
  destruct (aligned_construction uganda_profile (c_date c) (c_step c) (random_state (fun _ _ => 0%N) 0)) as (y & E & _); auto.
  - reflexivity.
  - left. split; [|exact H4]. destruct H2 as [k Hk]. exists (24 * k)%Z. unfold day. rewrite <- Z.mul_assoc, <- Hk. reflexivity.
  - apply Z.divide_sub_r; assumption.
  - cbn. repeat constructor; unfold Qle; cbn; lia.
  - reflexivity.
  - eexists _, y. exact E.
Qed.
