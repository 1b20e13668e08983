(** Creation of stories. *)
From Verif Require Import Base BaseFacts Rng RngFacts Utils UtilsFacts Relationship RelationshipFacts Frame Gens GensProps
  Clock SpecClock ClockProps Attribute AttributeFacts World Story Ops OpsFacts Fs Circus SpecStory StoryFacts StoryExec
  StoryProps SpecOps OpsProps OpsColumns StoryMore StoryStates StoryBack StoryDelay.
From Coq Require Import Permutation.

Lemma generate_gens g n w r w' : generate g n w = (r, w') -> exists gens, w' = set_gens gens w.
Proof.
  unfold generate, bindM, get, lift, modify, ret. destruct (gen_generate (w_gens w) g n) as [[vs gens']|e]; intros [= <- <-].
  - now exists gens'.
  - exists (w_gens w). destruct w; reflexivity.
Qed.
Lemma set_gens_twice a b w : set_gens a (set_gens b w) = set_gens a w.
Proof. reflexivity. Qed.
Lemma set_gens_same w : set_gens (w_gens w) w = w.
Proof. destruct w; reflexivity. Qed.

Lemma state_params_ok ids size g w ps w' : state_params ids size g w = (Ok ps, w') ->
  length ps = length ids /\ exists gens, w' = set_gens gens w.
Proof.
  intros H. unfold state_params in H. mstep H. apply generate_gens in E as (g1 & ->). mstep H.
  apply generate_gens in E as (g2 & ->).
  destruct (length x =? length ids) eqn:L1; [|discriminate]. destruct (length x0 =? length ids) eqn:L2; [|discriminate].
  cbn [negb orb] in H. apply Nat.eqb_eq in L1, L2. mstep H. mstep H. apply lift_ok in E as [E ->]. apply lift_ok in E0 as [E0 ->].
  injection H as <- <-. split; [|now exists g2]. rewrite combine_length.
  assert (length x1 = length x) by (apply mapr_ok_Forall2 in E; clear - E; induction E; cbn; auto).
  assert (length x2 = length x0) by (apply mapr_ok_Forall2 in E0; clear - E0; induction E0; cbn; auto). lia.
Qed.

Lemma all_params_ok ids size states w cols w' : all_params ids size states w = (Ok cols, w') ->
  map fst cols = map fst states /\ Forall (fun c => length (snd c) = length ids) cols /\ exists gens, w' = set_gens gens w.
Proof.
  revert w cols w'. induction states as [|[n g] states IH]; intros w cols w' H; cbn [all_params] in H.
  - injection H as <- <-. split; [reflexivity|]. split; [constructor|]. exists (w_gens w). now rewrite set_gens_same.
  - mstep H. apply state_params_ok in E as (L & g1 & ->). mstep H. apply IH in E as (K & F & g2 & ->).
    injection H as <- <-. cbn. split; [now f_equal|]. split; [constructor; auto|]. now exists g2.
Qed.

Lemma params_table_keys ids cols : dkeys (params_table ids cols) = ids.
Proof. revert cols. induction ids as [|i ids IH]; intros cols; cbn; [reflexivity|]. f_equal. apply IH. Qed.

(** the parameters of the member at position [k] *)
Lemma params_table_nth ids : forall cols k i, nth_error ids k = Some i ->
  Forall (fun c => length (snd c) = length ids) cols ->
  exists states, nth_error (params_table ids cols) k = Some (i, states) /\
    forall st ab, In (st, ab) states <-> exists vals, In (st, vals) cols /\ nth_error vals k = Some ab.
Proof.
  induction ids as [|j ids IH]; intros cols [|k] i Hk F; cbn in Hk; try discriminate.
  - injection Hk as ->. cbn [params_table nth_error]. eexists. split; [reflexivity|].
    intros st ab. rewrite in_flat_map. split.
    + intros ([n vals] & Hc & Hi). cbn in Hi. destruct vals as [|v vals]; [destruct Hi|].
      destruct Hi as [[= <- <-]|[]]. exists (v :: vals). auto.
    + intros (vals & Hc & Hn). exists (st, vals). split; [exact Hc|]. cbn. destruct vals; [discriminate|].
      cbn in Hn. injection Hn as ->. now left.
  - cbn [params_table nth_error].
    destruct (IH (map (fun c => (fst c, tl (snd c))) cols) k i Hk) as (states & E & Hs).
    { apply Forall_map. eapply Forall_impl; [|exact F]. intros [n vals] L. cbn in *. destruct vals; cbn in *; lia. }
    exists states. split; [exact E|]. intros st ab. rewrite Hs. split.
    + intros (vals & Hc & Hn). apply in_map_iff in Hc as ([n v] & Ec & Hc). cbn in Ec. injection Ec as <- <-.
      exists v. split; [exact Hc|]. destruct v; [destruct k; discriminate|exact Hn].
    + intros (vals & Hc & Hn). exists (tl vals). split.
      * apply in_map_iff. exists (st, vals). auto.
      * destruct vals; [discriminate|exact Hn].
Qed.

Definition fresh_timer (ids : list val) : list (val * (string * option Z)) :=
  map (fun i => (i, ("default"%string, Some (-1)%Z))) ids.
Lemma fresh_state ids i : In i ids -> dget i (fresh_timer ids) = Some ("default"%string, Some (-1)%Z).
Proof.
  induction ids as [|j ids IH]; cbn; [intros []|]. intros H. destruct (keqb_spec i j) as [E|N]; [reflexivity|].
  apply IH. destruct H; [congruence|assumption].
Qed.

Lemma new_story_ok order name p f default states t auto w s w' :
  new_story order name p f default states t auto w = (Ok s, w') ->
  (forall l, Permutation (order l) l) ->
  exists po gens cols g' sb, nth_error (w_pops w) p = Some po /\
    w' = set_tgens (if auto then match g' with Some g => set_nth t g (w_tgens w) | None => w_tgens w end else w_tgens w) (set_gens gens w) /\
    static sb s /\ st_forced s = [] /\ (forall i, state_of s i = state_of sb i) /\
    sb = mkStory name p f t auto [] (map fst cols) (params_table (p_ids po) cols) (fresh_timer (p_ids po)) [] /\
    Forall (fun c => length (snd c) = length (p_ids po)) cols /\
    (forall n, In n (map fst cols) <-> n = "default"%string \/ match states with Some d => In n (dkeys d) | None => False end) /\
    (if auto then exists g g1, nth_error (w_tgens w) t = Some g /\ reset_timers sb g None = Ok (s, g1) /\ g' = Some g1 else s = sb).
Proof.
  intros H Hord. unfold new_story in H. mstep H. apply deref_ok in E as [Hp ->]. rename x into po.
  mstep H. rename x into merged.
  assert (Hm : w0 = w /\ forall n, In n (map fst merged) <-> n = "default"%string \/ match states with Some d => In n (dkeys d) | None => False end).
  { destruct states as [d|].
    - apply lift_ok in E as [E ->]. split; [reflexivity|]. intros n.
      apply merge_ord_keys in E. change (map fst merged) with (dkeys merged). rewrite E.
      assert (P : In n (order (union_keys [("default"%string, default)] d)) <-> In n (union_keys [("default"%string, default)] d)).
      { split; intros Hi; [eapply Permutation_in; [apply Hord|exact Hi]|eapply Permutation_in; [symmetry; apply Hord|exact Hi]]. }
      rewrite P, union_keys_In. cbn. intuition.
    - injection E as <- <-. split; [reflexivity|]. cbn. intuition. }
  destruct Hm as [-> Hm]. clear E. mstep H. apply all_params_ok in E as (K & F & gens & ->). rename x into cols.
  set (sb := mkStory name p f t auto [] (map fst merged) (params_table (p_ids po) cols) _ []) in H.
  assert (Hsb : sb = mkStory name p f t auto [] (map fst cols) (params_table (p_ids po) cols) (fresh_timer (p_ids po)) []).
  { unfold sb. rewrite K. reflexivity. }
  rewrite <- K in Hm. destruct auto.
  - mstep H. apply deref_ok in E as [Hg ->]. mstep H. apply lift_ok in E as [Er ->]. destruct x0 as [s' g1].
    mstep H. injection E as _ <-. injection H as <- <-. cbn [w_tgens set_gens] in Hg.
    destruct (reset_spec _ _ _ _ _ Er) as (St & Hf & Hst & _).
    exists po, gens, cols, (Some g1), sb. split; [exact Hp|]. split; [reflexivity|]. split; [exact St|]. split; [exact Hf|].
    split; [exact Hst|]. split; [exact Hsb|]. split; [exact F|]. split; [exact Hm|]. exists x, g1. auto.
  - injection H as <- <-. exists po, gens, cols, None, sb. split; [exact Hp|]. split; [destruct w; reflexivity|].
    split; [apply static_refl|]. split; [reflexivity|]. split; [reflexivity|]. split; [exact Hsb|]. auto.
Qed.

Lemma find_story_In name stories k : find_story name stories k = None <-> ~ In name (map st_name stories).
Proof.
  revert k. induction stories as [|s l IH]; intros k; cbn; [tauto|].
  destruct (keqb_spec (st_name s) name) as [E|N]; [split; [discriminate|intros H; exfalso; auto]|].
  rewrite IH. tauto.
Qed.

Lemma create_story_ok order name p f default states t auto w a w' :
  create_story order name p f default states t auto w = (Ok a, w') -> (forall l, Permutation (order l) l) ->
  exists s w1, ~ In name (map st_name (w_stories w)) /\
    new_story order name p f default states t auto w = (Ok s, w1) /\ w_stories w1 = w_stories w /\
    w' = set_stories (w_stories w ++ [s]) w1 /\ a = length (w_stories w).
Proof.
  intros H Hord. unfold create_story in H. mstep H. injection E as <- <-.
  destruct (find_story name (w_stories w) 0) eqn:Ef; [discriminate|]. apply find_story_In in Ef.
  mstep H. mstep H. injection E0 as <- <-. mstep H. injection E0 as _ <-. injection H as <- <-.
  destruct (new_story_ok _ _ _ _ _ _ _ _ _ _ _ E Hord) as (po & gens & cols & g' & sb & _ & -> & _).
  exists x. eexists. split; [exact Ef|]. split; [exact E|]. auto.
Qed.

(** What a new story knows. *)
Lemma created order name p f default states t auto w a w' :
  create_story order name p f default states t auto w = (Ok a, w') -> (forall l, Permutation (order l) l) ->
  exists po s, nth_error (w_pops w) p = Some po /\ w_stories w' = w_stories w ++ [s] /\ a = length (w_stories w) /\
    nth_error (w_stories w') a = Some s /\ st_ids s = p_ids po /\
    st_name s = name /\ st_auto s = auto /\ st_tgen s = t /\ st_field s = f /\ st_forced s = [] /\ st_ops s = [] /\
    (forall i, In i (p_ids po) -> state_of s i = Some "default"%string) /\
    (forall n, In n (st_states s) <-> n = "default"%string \/ match states with Some d => In n (dkeys d) | None => False end) /\
    (auto = false -> forall i, In i (p_ids po) -> remaining_of s i = Some (Some (-1)%Z)) /\
    (auto = true -> forall c, nth_error (w_tgens w) t = Some (TConst c) -> NoDup (p_ids po) ->
       forall i, In i (p_ids po) -> (forall st q, activity_in s i st q -> ~ q == 0)%Q -> remaining_of s i = Some (Some c)).
Proof.
  intros H Hord. destruct (create_story_ok _ _ _ _ _ _ _ _ _ _ _ H Hord) as (s & w1 & Hn & Hs & Hw & -> & ->).
  destruct (new_story_ok _ _ _ _ _ _ _ _ _ _ _ Hs Hord) as (po & gens & cols & g' & sb & Hp & _ & St & Hf & Hst & Hsb & F & Hm & Hr).
  destruct St as (S1&S2&S3&S4&S5&S6&S7&S8&S9).
  assert (Hids : st_ids sb = p_ids po).
  { rewrite Hsb. unfold st_ids, dkeys. cbn. unfold fresh_timer. rewrite map_map. apply map_id. }
  exists po, s. split; [exact Hp|]. split; [reflexivity|]. split; [reflexivity|].
  split; [cbn [w_stories set_stories]; rewrite nth_error_app2, Nat.sub_diag by lia; reflexivity|].
  split; [congruence|]. split; [rewrite S1, Hsb; reflexivity|]. split; [rewrite S5, Hsb; reflexivity|].
  split; [rewrite S4, Hsb; reflexivity|]. split; [rewrite S3, Hsb; reflexivity|]. split; [exact Hf|].
  split; [rewrite S8, Hsb; reflexivity|].
  split. { intros i Hi. rewrite Hst, Hsb. unfold state_of. cbn. now rewrite fresh_state. }
  split. { intros n. rewrite S6, Hsb. cbn [st_states]. apply Hm. }
  split.
  - intros -> i Hi. subst s. rewrite Hsb. unfold remaining_of. cbn. now rewrite fresh_state.
  - intros -> c Hc Nd i Hi Hact. destruct Hr as (g & g1 & Hg & Hr & _). assert (g = TConst c) by congruence. subst g.
    destruct (reset_rows _ _ _ _ _ Hr ltac:(now rewrite Hids) I) as (act & cnt & Hk & Hgn & Hv & Hrr & _).
    assert (Hin : In i (reset_ids sb None)).
    { apply reset_addressed. rewrite Hids. split; [exact Hi|]. rewrite Hsb. intros []. }
    destruct (Hrr i Hin) as (q & tt0 & Hq & Ht & E). destruct (Hv i q Hq) as (st & _ & Hdec).
    apply declared_activity in Hdec. unfold activity_in in Hdec, Hact. rewrite <- S7 in Hdec. pose proof (Hact _ _ Hdec) as Hnz.
    assert (Hne : act <> []) by (intros ->; destruct Hq). specialize (Hgn Hne). cbn in Hgn. injection Hgn as <- _.
    apply in_map_iff in Ht as (o & Eo & _). injection Eo as _ <-. rewrite E.
    destruct (Qeq_bool q 0) eqn:Eq; [apply Qeq_bool_iff in Eq; contradiction|reflexivity].
Qed.
