(** What an execution of the stories of the geography logs and stores. *)
From Verif Require Import Base BaseFacts Rng RngFacts Utils UtilsFacts Relationship RelationshipFacts SpecRelationship RelationshipProps
  Frame Gens GensProps Clock SpecClock ClockProps Attribute AttributeFacts World Story Ops OpsFacts Fs Circus SpecStory StoryFacts StoryExec
  StoryProps StoryDelay SpecOps OpsProps OpsColumns OpsMore StoryMore SpecWorld SpecPopulation PopProps SpecAct ActFacts GensKept Geography GeographyRun GeographyBuild.
From Coq Require Import Permutation Lqa Qround.
Local Open Scope nat_scope.

Lemma run_list_step o ops d prev w d' l w' : run_list run_op (o :: ops) d prev w = (Ok (d', l), w') ->
  exists d1 l1 w1 all, run_op o d w = (Ok (d1, l1), w1) /\ merge_dicts [prev; l1] (Some df_concat) = Ok all /\
    run_list run_op ops d1 all w1 = (Ok (d', l), w').
Proof.
  cbn [run_list]. intros H. mstep H. destruct x as [d1 l1]. mstep H. apply lift_ok in E0 as [E0 ->]. eauto 8.
Qed.

Definition status_rows (fmt : Z -> val) (due vs : list val) (dates : list Z) : list (val * list val) :=
  map (fun x => (fst x, [fmt (snd (snd x)); fst x; fst (snd x)])) (combine due (combine vs dates)).

Lemma attr_update_single a idf copy d w d' l w' : df_rows d <> [] -> run_op (OpAttrUpdate a idf copy) d w = (Ok (d', l), w') -> single_valued w a.
Proof.
  intros Hr H. cbn [run_op] in H. unfold side_effect in H. mstep H. unfold if_rows in E. destruct (df_rows d) as [|r0 rs]; [easy|].
  mstep E. mstep E. unfold update_attr in E. mstep E. apply deref_ok in E2 as [E2 _]. destruct (attr_update x2 _) as [res t'] eqn:Ea.
  unfold attr_update in Ea. destruct (nodupb (dkeys x2)) eqn:En; [exists x2; split; [|now apply nodupb_NoDup in En]|].
  - apply lift_ok in E0 as [_ ->]. apply lift_ok in E1 as [_ ->]. exact E2.
  - cbn [negb] in Ea. injection Ea as <- <-. mstep E. discriminate.
Qed.

Definition same_attrs (w w' : world) : Prop := w_attrs w' = w_attrs w.
Lemma transit_attrs a ids st : keeps same_attrs (story_transit a ids st).
Proof.
  intros w. unfold story_transit, bindM, deref, lift, same_attrs.
  destruct (nth_error (w_stories w) a) as [s|]; [|reflexivity]. destruct (transit_to_state s ids st); reflexivity.
Qed.
Lemma back_attrs a judge d : keeps same_attrs (back_to_default a judge d).
Proof.
  unfold same_attrs.
  apply (keeps_back same_attrs) with (okt := fun _ => True); unfold same_attrs; try congruence; auto.
  intros. apply transit_attrs.
Qed.

Lemma reset_op_world b f d w d' l w' : run_op (OpReset b f) d w = (Ok (d', l), w') ->
  d' = d /\ l = [] /\ exists st tg, w' = set_stories st (set_tgens tg w).
Proof.
  intros H. destruct (reset_op_ids _ _ _ _ _ _ _ H) as (ids & Hr & _). cbn [run_op] in H. unfold side_effect in H. mstep H. destruct x. injection H as <- <- <-.
  split; [reflexivity|]. split; [reflexivity|]. apply story_reset_ok in Hr as (s & s' & g & g' & _ & _ & _ & ->). eauto.
Qed.

Lemma combine_map_l {A B C} (f : A -> B) (l : list A) (m : list C) : combine (map f l) m = map (fun x => (f (fst x), snd x)) (combine l m).
Proof. revert m. induction l as [|x l IH]; intros [|y m]; cbn; [reflexivity..|]. now rewrite IH. Qed.

Lemma status_chain src g health extra a bk due w d l w' :
  run_chain ([OpGenerate g "NEW_HEALTH_LEVEL" None; OpAttrUpdate health "CELL_ID" "NEW_HEALTH_LEVEL"] ++ extra ++
    [OpTimestamp "TIME" true (time_format src); field_logger "cell_status" (Some status_cols) []; OpBack a bk])
    (init_story_data "CELL_ID" due) w = (Ok (d, l), w') ->
  (extra = [] \/ exists b, extra = [OpReset b (Some "CELL_ID"%string)]) ->
  health_law src w g -> due <> [] -> NoDup due ->
  exists vs dates, length vs = length due /\ Forall (fun v => exists x, v = VNum (beta_1_999 src x)) vs /\ length dates = length due /\
    Forall (fun t => c_date (w_clock w) <= t < c_date (w_clock w) + c_step (w_clock w))%Z dates /\
    l = [("cell_status"%string, mkDf status_cols (status_rows (time_format src) due vs dates))] /\ single_valued w health /\
    forall k v, holds w' health k v <-> In (k, v) (combine due vs) \/ ~ In k due /\ holds w health k v.
Proof.
  intros H Hex (st & Hg) Hd Nd. unfold run_chain in H. cbn [app] in H.
  apply run_list_step in H as (d1 & l1 & w1 & all1 & H1 & M1 & H).
  assert (L1 : l1 = []). { cbn [run_op] in H1. unfold transformed in H1. mstep H1. now injection H1 as _ <- _. }
  subst l1. cbn in M1. injection M1 as <-.
  apply generate_adds in H1; [|cbn; intuition discriminate]. destruct H1 as (vs & gens' & Ev & (Ec & Lv & Er) & ->).
  cbn [df_cols df_rows init_story_data app] in Ec, Lv, Er. rewrite map_length in Lv.
  assert (Hrows : df_rows d1 = map (fun x => (fst x, [fst x; snd x])) (combine due vs)).
  { rewrite Er, combine_map_l, map_map. apply map_ext. intros [i v]. reflexivity. }
  assert (Hlaw : Forall (fun v => exists x, v = VNum (beta_1_999 src x)) vs).
  { cbn [random_values] in Ev. cbn [init_story_data df_rows] in Ev. unfold gen_generate in Ev. cbn [heap_generate] in Ev. rewrite Hg in Ev.
    apply bind_ok in Ev as ([vs0 g0] & Ev & E2). injection E2 as -> _.
    destruct (other_step (beta_1_999 src) st (Z.of_nat (length (map (fun i : val => (i, [i])) due)))) as (vs1 & st1 & _ & F & E1); [lia|].
    rewrite E1 in Ev. injection Ev as <- _. exact F. }
  apply run_list_step in H as (d2 & l2 & w2 & all2 & H2 & M2 & H).
  assert (Hne : df_rows d1 <> []). { rewrite Hrows. destruct due; [easy|]. destruct vs; [discriminate|]. discriminate. }
  pose proof (attr_update_single _ _ _ _ _ _ _ _ Hne H2) as Hsv.
  destruct (act_attr_update _ _ _ _ _ _ _ _ H2 Hsv) as (-> & -> & Ho & _ & _ & Hh). cbn in M2. injection M2 as <-.
  assert (Hlist : listed d1 "CELL_ID" "NEW_HEALTH_LEVEL" = combine due vs).
  { unfold listed. rewrite Ec, Hrows, map_map. cbn. rewrite <- map_id. apply map_ext. now intros []. }
  rewrite Hlist in Hh. rewrite map_fst_combine in Hh by lia.
  destruct Ho as [[Ho _] _].
  assert (X : exists st2 tg2, run_list run_op [OpTimestamp "TIME" true (time_format src); field_logger "cell_status" (Some status_cols) []; OpBack a bk]
            d1 [] (set_stories st2 (set_tgens tg2 w2)) = (Ok (d, l), w')).
  { destruct Hex as [->|(b & ->)]; cbn [app] in H.
    - exists (w_stories w2), (w_tgens w2). destruct w2. exact H.
    - apply run_list_step in H as (d3 & l3 & w3 & all3 & H3 & M3 & H). apply reset_op_world in H3 as (-> & -> & st2 & tg2 & ->).
      cbn in M3. injection M3 as <-. eauto. }
  destruct X as (st2 & tg2 & X). clear H. rename X into H.
  apply run_list_step in H as (d3 & l3 & w3 & all3 & H3 & M3 & H).
  assert (L3 : l3 = []). { cbn [run_op] in H3. unfold transformed in H3. mstep H3. now injection H3 as _ <- _. }
  subst l3. cbn in M3. injection M3 as <-.
  apply timestamp_adds in H3; [|rewrite Ec; cbn; intuition discriminate]. destruct H3 as (dates & c' & Et & (Ec3 & Lt & Er3) & ->).
  rewrite Ec in Ec3. cbn [app] in Ec3. rewrite map_length in Lt.
  apply timestamps_in_step in Et as (_ & _ & _ & Ft). rewrite Ho in Ft. cbn [w_clock set_stories set_tgens set_attrs set_gens] in Ft.
  assert (Ld : length dates = length due). { rewrite Lt, Hrows, map_length, combine_length. lia. }
  apply run_list_step in H as (d4 & l4 & w4 & all4 & H4 & M4 & H).
  rewrite log_of_columns in H4; [| |rewrite Ec3; intros x Hx; cbn in *; intuition|discriminate].
  2:{ rewrite Ec3. repeat constructor; cbn; intuition discriminate. }
  injection H4 as <- <- <-. cbn in M4. injection M4 as <-.
  apply run_list_step in H as (d5 & l5 & w5 & all5 & H5 & M5 & H). cbn [run_list] in H. injection H as <- <- <-.
  cbn [run_op] in H5. unfold side_effect in H5. mstep H5. destruct x. injection H5 as <- <- <-. cbn in M5. injection M5 as <-.
  exists vs, dates. split; [exact Lv|]. split; [exact Hlaw|]. split; [exact Ld|]. split.
  { eapply Forall_impl; [|exact Ft]. tauto. }
  split; [|split; [exact Hsv|]].
  - do 3 f_equal. unfold status_rows. rewrite Ec3, Er3, Hrows. rewrite combine_map_l, map_map.
    clear -Lv Ld. revert vs dates Lv Ld. induction due as [|i due IH]; intros [|v vs] [|t ts] L1 L2; try discriminate; [reflexivity|].
    cbn [combine map fst snd]. f_equal. cbn in L1, L2. apply IH; lia.
  - intros k v. rewrite <- Hh. pose proof (back_attrs a bk d3 (set_clock c' (set_stories st2 (set_tgens tg2 w2)))) as B. rewrite E in B.
    unfold same_attrs in B. cbn [snd w_attrs set_clock set_stories set_tgens] in B. unfold holds. rewrite B. tauto.
Qed.
