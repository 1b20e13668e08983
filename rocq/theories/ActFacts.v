(** Operations on stories: the rows they name (C107). *)
From Verif Require Import Base BaseFacts Rng Utils UtilsFacts Relationship SpecRelationship Frame Gens Clock Attribute SpecAttribute AttributeFacts
  World Story Ops OpsFacts Fs Circus SpecStory StoryFacts StoryExec StoryProps SpecOps OpsProps OpsColumns StoryMore StoryStates
  StoryWorld StoryWorld2 SpecWorld WorldProps SpecPopulation PopProps PopMore SpecAct.
From Coq Require Import ListDec.

(** ** Rows under a condition *)
Definition keepb (cond : option string) (d : df) (row : val * list val) : bool :=
  match cond with None => true | Some c => val_eqb (cell (df_cols d) (snd row) c) (VBool true) end.

Lemma keepb_chosen cond d row : keepb cond d row = true <-> chosen cond d row.
Proof.
  destruct cond as [c|]; cbn; [|tauto]. change val_eqb with (@keqb val _).
  destruct (keqb_spec (cell (df_cols d) (snd row) c) (VBool true)); split; congruence.
Qed.

Lemma is_na_true v : is_na v = true <-> v = VNA.
Proof. destruct v; cbn; split; congruence. Qed.

Lemma mask_cond cond d mask :
  match cond with None => Ok (map (fun _ => true) (df_rows d)) | Some c => bool_col d c end = Ok mask ->
  df_mask d mask = mkDf (df_cols d) (filter (keepb cond d) (df_rows d)).
Proof.
  unfold df_mask. destruct cond as [c|]; intros H.
  - apply bool_col_ok in H as [-> _]. now rewrite mask_filter.
  - injection H as <-. f_equal. exact (mask_filter (fun _ => true) (df_rows d)).
Qed.

Lemma force_ids_spec d f cond ids : force_ids d f cond = Ok ids -> forall i, In i ids <-> targets f cond d i.
Proof.
  unfold force_ids. intros H i. apply bind_ok in H as (mask & Em & H). apply bind_ok in H as (s & Es & H). injection H as <-.
  apply mask_cond in Em. rewrite Em in Es. apply get_col_cells in Es. subst s. cbn [df_cols df_rows].
  unfold dropna, targets. rewrite in_map_iff. split.
  - intros ([lab v] & <- & H). apply filter_In in H as [H Hn]. apply in_map_iff in H as (row & [= <- <-] & H).
    apply filter_In in H as [Hr Hc]. cbn [snd] in *. split.
    + intros E. rewrite E in Hn. discriminate.
    + exists row. split; [exact Hr|]. split; [now apply keepb_chosen|reflexivity].
  - intros (Hn & row & Hr & Hc & <-). exists (fst row, cell (df_cols d) (snd row) f). split; [reflexivity|].
    apply filter_In. split.
    + apply in_map_iff. exists row. split; [reflexivity|]. apply filter_In. split; [exact Hr|]. now apply keepb_chosen.
    + cbn [snd]. destruct (is_na _) eqn:E; [|reflexivity]. apply is_na_true in E. contradiction.
Qed.

Definition move_of (f : string) (state : string + string) (cond : option string) (d : df) (row : val * list val) : list (val * string) :=
  if keepb cond d row then
    let i := cell (df_cols d) (snd row) f in
    if is_na i then [] else
    match state with
    | inr s => [(i, s)]
    | inl c => match cell (df_cols d) (snd row) c with VStr st => [(i, st)] | _ => [] end
    end
  else [].

Lemma move_of_spec f state cond d row i st : In (i, st) (move_of f state cond d row) <-> moves f state cond d row i st.
Proof.
  unfold move_of, moves. rewrite <- keepb_chosen. destruct (keepb cond d row); [|cbn; split; [tauto|intros (? & _); discriminate]].
  cbv zeta. destruct (is_na _) eqn:En.
  - apply is_na_true in En. rewrite En. cbn. split; [tauto|]. intros (_ & H & E & _). congruence.
  - destruct state as [c|s].
    + destruct (cell (df_cols d) (snd row) c) eqn:Ec; cbn; split; try tauto; try (intros (_ & _ & _ & K); discriminate).
      * intros [[= <- <-]|[]]. split; [reflexivity|]. split; [|split; reflexivity]. intros E. rewrite E in En. discriminate.
      * intros (_ & _ & <- & [= <-]). now left.
    + cbn. split.
      * intros [[= <- <-]|[]]. split; [reflexivity|]. split; [|split; reflexivity]. intros E. rewrite E in En. discriminate.
      * intros (_ & _ & <- & ->). now left.
Qed.
Lemma move_of_one f state cond d row : move_of f state cond d row = [] \/ exists p, move_of f state cond d row = [p].
Proof.
  unfold move_of. destruct (keepb cond d row); [|auto]. cbv zeta. destruct (is_na _); [auto|]. destruct state as [c|s]; [|eauto].
  destruct (cell _ _ c); eauto.
Qed.

Lemma transit_pairs_spec d f state cond pairs : transit_pairs d f state cond = Ok pairs ->
  pairs = flat_map (move_of f state cond d) (df_rows d).
Proof.
  unfold transit_pairs. intros H. apply bind_ok in H as (fd & Ef & H).
  assert (X : fd = mkDf (df_cols d) (filter (keepb cond d) (df_rows d))).
  { destruct cond as [c|].
    - apply bind_ok in Ef as (bs & Eb & Ef). injection Ef as <-. now apply (mask_cond (Some c)).
    - injection Ef as <-. rewrite filter_all_true; [now destruct d|reflexivity]. }
  subst fd. clear Ef. apply bind_ok in H as (ids & Ei & H). apply get_col_cells in Ei. subst ids. cbn [df_cols df_rows] in H.
  destruct state as [c|s].
  - apply bind_ok in H as (states & Es & H). apply get_col_cells in Es. subst states. cbn [df_cols df_rows] in H.
    rewrite !map_map in H. cbn [snd] in H. revert pairs H.
    induction (df_rows d) as [|row rows IH]; intros pairs H; cbn [flat_map filter]; [now injection H as <-|].
    unfold move_of at 1. cbn [filter] in H. destruct (keepb cond d row); [|now apply IH].
    cbn [map combine filter fst snd] in H. destruct (is_na (cell (df_cols d) (snd row) f)) eqn:En; cbn [negb andb] in H; [now apply IH|].
    destruct (is_na (cell (df_cols d) (snd row) c)) eqn:Ec; cbn [negb] in H.
    + apply is_na_true in Ec. rewrite Ec. now apply IH.
    + cbn [mapr snd fst] in H. apply bind_ok in H as (p & Ep & H). apply bind_ok in H as (l & El & H). injection H as <-.
      apply bind_ok in Ep as (st & Est & Ep). injection Ep as <-. apply IH in El. subst l.
      destruct (cell (df_cols d) (snd row) c); try discriminate. now injection Est as <-.
  - injection H as <-. induction (df_rows d) as [|row rows IH]; cbn [flat_map filter]; [reflexivity|].
    unfold move_of at 1. destruct (keepb cond d row); [|exact IH]. cbn [map dropna filter snd].
    destruct (is_na (cell (df_cols d) (snd row) f)) eqn:En; cbn [negb]; [exact IH|]. cbn [map app snd]. f_equal. exact IH.
Qed.

Lemma last_value_None {V} k (l : list (val * V)) : last_value k l = None <-> ~ In k (map fst l).
Proof.
  induction l as [|[k' v] l IH]; cbn; [tauto|]. destruct (last_value k l) eqn:E.
  - split; [discriminate|]. intros H. exfalso. apply H. right. destruct (in_dec key_dec k (map fst l)) as [K|K]; [exact K|].
    apply IH in K. discriminate.
  - change (val_eqb k' k) with (keqb k' k). destruct (keqb_spec k' k); split; intros H; try tauto; try discriminate.
Qed.

Lemma flat_moves_last f state cond d i st rows :
  last_value i (flat_map (move_of f state cond d) rows) = Some st <->
  exists before row after, rows = before ++ row :: after /\ moves f state cond d row i st /\
    forall row' st', In row' after -> ~ moves f state cond d row' i st'.
Proof.
  induction rows as [|r rows IH]; cbn [flat_map].
  { cbn. split; [discriminate|]. intros ([|] & ? & ? & E & _); discriminate. }
  rewrite last_value_app. destruct (last_value i (flat_map _ rows)) as [st0|] eqn:El.
  - rewrite IH. split.
    + intros (b & row & a & -> & K). exists (r :: b), row, a. split; [reflexivity|exact K].
    + intros ([|r' b] & row & a & [= -> E] & Hm & Hn).
      * exfalso. subst a. assert (In i (map fst (flat_map (move_of f state cond d) rows))) as Hin.
        { destruct (in_dec key_dec i (map fst (flat_map (move_of f state cond d) rows))) as [K|K]; [exact K|].
          apply last_value_None in K. congruence. }
        apply in_map_iff in Hin as ([i' st'] & E1 & Hin). cbn in E1. subst i'. apply in_flat_map in Hin as (row' & Hr & Hin).
        apply move_of_spec in Hin. exact (Hn _ _ Hr Hin).
      * subst rows. exists b, row, a. auto.
  - apply last_value_None in El.
    assert (N : forall row' st', In row' rows -> ~ moves f state cond d row' i st').
    { intros row' st' Hr Hm. apply El. apply in_map_iff. exists (i, st'). split; [reflexivity|]. apply in_flat_map. exists row'.
      split; [exact Hr|now apply move_of_spec]. }
    split.
    + intros H. exists [], r, rows. split; [reflexivity|]. split; [|exact N]. apply move_of_spec.
      destruct (move_of_one f state cond d r) as [E|([i' st'] & E)]; rewrite E in *; cbn in H; [discriminate|].
      change (val_eqb i' i) with (keqb i' i) in H. destruct (keqb_spec i' i); [|discriminate]. injection H as ->. subst. now left.
    + intros ([|r' b] & row & a & [= -> E] & Hm & Hn).
      * apply move_of_spec in Hm. destruct (move_of_one f state cond d row) as [E1|([i' st'] & E1)]; rewrite E1 in *; [destruct Hm|]. destruct Hm as [[= -> ->]|[]].
        cbn. change (val_eqb i i) with (keqb i i). now rewrite keqb_refl.
      * exfalso. subst rows. apply (N row st); [apply in_or_app; right; now left|exact Hm].
Qed.

Lemma flat_moves_never f state cond d i :
  ~ In i (map fst (flat_map (move_of f state cond d) (df_rows d))) <-> never_moved f state cond d i.
Proof.
  unfold never_moved. split.
  - intros H row st Hr Hm. apply H. apply in_map_iff. exists (i, st). split; [reflexivity|]. apply in_flat_map. exists row.
    split; [exact Hr|now apply move_of_spec].
  - intros H Hin. apply in_map_iff in Hin as ([i' st'] & E1 & Hin). cbn in E1. subst i'. apply in_flat_map in Hin as (row' & Hr & Hin).
    apply move_of_spec in Hin. exact (H _ _ Hr Hin).
Qed.

(** ** force_act_next *)

Lemma only_story_refl a w : only_story a w w.
Proof. split; [now destruct w|reflexivity]. Qed.
Lemma only_story_set a s w : only_story a w (set_stories (set_nth a s (w_stories w)) w).
Proof. split; [reflexivity|]. intros b Hb. cbn. now apply nth_put_other, not_eq_sym. Qed.

Lemma counter_zero s i : In i (st_ids s) -> exists r, remaining_of s i = Some r.
Proof.
  intros H. unfold remaining_of. destruct (dget i (st_timer s)) as [[st r]|] eqn:E; [eexists; reflexivity|]. apply dget_None in E. contradiction.
Qed.

Lemma act_force a f cond d w d' l w' : run_op (OpForce a f cond) d w = (Ok (d', l), w') -> distinct_members w ->
  d' = d /\ l = [] /\ only_story a w w' /\
  (forall i, targets f cond d i -> counter w' a i (Some 0%Z)) /\
  (forall i r, ~ targets f cond d i -> (counter w' a i r <-> counter w a i r)) /\
  (forall i, is_forced w' a i <-> is_forced w a i \/ targets f cond d i) /\
  (forall i st, in_state w' a i st <-> in_state w a i st).
Proof.
  cbn [run_op]. intros H D. unfold side_effect in H. mstep H. injection H as <- <- ->.
  split; [reflexivity|]. split; [reflexivity|]. unfold if_rows in E. destruct (df_rows d) as [|r0 rs] eqn:Er.
  { injection E as _ <-. assert (N : forall i, ~ targets f cond d i).
    { intros i (_ & row & Hr & _). rewrite Er in Hr. destruct Hr. }
    split; [apply only_story_refl|]. split; [intros i K; now apply N in K|]. split; [tauto|]. split; [|tauto]. intros i. specialize (N i). tauto. }
  mstep E. apply lift_ok in E0 as [E0 ->]. pose proof (force_ids_spec _ _ _ _ E0) as T. clear E0. rename x0 into ids.
  apply story_force_ok in E as (s & s' & Hs & Ef & ->). destruct (force_spec _ _ _ _ Ef) as (St & Hst & Hf & Hk & Hr & _).
  specialize (Hk eq_refl). specialize (Hr eq_refl).
  set (w' := set_stories _ _). assert (Hs' : nth_error (w_stories w') a = Some s') by (cbn; eapply nth_put_same; eauto).
  pose proof (D _ _ Hs) as Nd. change (map fst (st_timer s)) with (st_ids s) in Nd.
  assert (Nd' : NoDup (st_ids s')) by (eapply static_nodup; eauto).
  split; [apply only_story_set|]. split; [|split; [|split]].
  - intros i Hi. apply T in Hi. apply (counter_iff _ _ _ _ s' Hs' Nd'). rewrite Hr. apply mem_In in Hi as Hm. rewrite Hm.
    destruct (counter_zero s i (Hk i Hi)) as (r & ->). reflexivity.
  - intros i r Hi. rewrite (counter_iff _ _ _ _ s' Hs' Nd'), (counter_iff _ _ _ _ s Hs Nd), Hr.
    destruct (mem i ids) eqn:M; [|reflexivity]. apply mem_In, T in M. contradiction.
  - intros i. unfold is_forced. split.
    + intros (s2 & H2 & K). assert (s2 = s') by congruence. subst. apply Hf in K as [K|K]; [left; eauto|right; now apply T].
    + intros [(s2 & H2 & K)|K]; exists s'; (split; [exact Hs'|]); apply Hf; [left; congruence|right; now apply T].
  - intros i st. rewrite (in_state_iff _ _ _ _ s' Hs' Nd'), (in_state_iff _ _ _ _ s Hs Nd), Hst. reflexivity.
Qed.

(** An id that is not a member: KeyError, the counters unchanged, yet every named id is in the
    set of forced ones. *)
Lemma act_force_unknown a f cond d w s ids j : nth_error (w_stories w) a = Some s -> distinct_members w -> force_ids d f cond = Ok ids ->
  targets f cond d j -> ~ In j (map fst (st_timer s)) ->
  exists w', run_op (OpForce a f cond) d w = (Err KeyError, w') /\ only_story a w w' /\
    (forall i r, counter w' a i r <-> counter w a i r) /\
    (forall i, is_forced w' a i <-> is_forced w a i \/ targets f cond d i).
Proof.
  intros Hs D Ei Hj Hn. pose proof (force_ids_spec _ _ _ _ Ei) as T.
  destruct (force_act_next s ids) as [res s'] eqn:Ef. destruct (force_spec _ _ _ _ Ef) as (St & Hst & Hf & Hk & _ & He).
  assert (R : res = Err KeyError /\ forall i, remaining_of s' i = remaining_of s i).
  { apply He. intros ->. apply Hn. apply Hk; [reflexivity|]. now apply T. }
  destruct R as [-> Hr]. exists (set_stories (set_nth a s' (w_stories w)) w). split.
  { cbn [run_op]. unfold side_effect, if_rows. destruct (df_rows d) as [|r0 rs] eqn:Er.
    - destruct Hj as (_ & row & Hrow & _). rewrite Er in Hrow. destruct Hrow.
    - unfold bindM at 1. unfold bindM at 1. rewrite Ei. cbn [lift]. unfold story_force. unfold bindM at 1. unfold deref. rewrite Hs.
      rewrite Ef. reflexivity. }
  set (w' := set_stories _ _). assert (Hs' : nth_error (w_stories w') a = Some s') by (cbn; eapply nth_put_same; eauto).
  pose proof (D _ _ Hs) as Nd. change (map fst (st_timer s)) with (st_ids s) in Nd.
  assert (Nd' : NoDup (st_ids s')) by (eapply static_nodup; eauto).
  split; [apply only_story_set|]. split.
  - intros i r. now rewrite (counter_iff _ _ _ _ s' Hs' Nd'), (counter_iff _ _ _ _ s Hs Nd), Hr.
  - intros i. unfold is_forced. split.
    + intros (s2 & H2 & K). assert (s2 = s') by congruence. subst. apply Hf in K as [K|K]; [left; eauto|right; now apply T].
    + intros [(s2 & H2 & K)|K]; exists s'; (split; [exact Hs'|]); apply Hf; [left; congruence|right; now apply T].
Qed.

Lemma force_ids_runs d f cond : rectangular d -> In f (df_cols d) ->
  (forall c, cond = Some c -> In c (df_cols d) /\ forall row, In row (df_rows d) -> exists b, cell (df_cols d) (snd row) c = VBool b) ->
  exists ids, force_ids d f cond = Ok ids.
Proof.
  intros R Hf Hc. unfold force_ids.
  assert (X : exists mask, match cond with None => Ok (map (fun _ => true) (df_rows d)) | Some c => bool_col d c end = Ok mask).
  { destruct cond as [c|]; [|eauto]. destruct (Hc c eq_refl) as [H1 H2]. rewrite (bool_col_runs d c R H1 H2). eauto. }
  destruct X as (mask & Em). rewrite Em. cbn [bind]. rewrite (mask_cond _ _ _ Em).
  rewrite get_col_runs; [cbn; eauto| |exact Hf]. destruct R as [R1 R2]. split; [exact R1|]. cbn [df_rows df_cols].
  intros row H. apply filter_In in H as [H _]. auto.
Qed.

(** ** transit_to_state *)
Lemma in_state_fun w a i st st' : distinct_members w -> in_state w a i st -> in_state w a i st' -> st = st'.
Proof.
  intros D (s & r & Hs & Hi) (s2 & r2 & H2 & Hi2). assert (s2 = s) by congruence. subst.
  pose proof (D _ _ Hs) as Nd. apply In_dget in Hi, Hi2; [|assumption|assumption]. congruence.
Qed.

Lemma transit_forced s ids states s' : transit_to_state s ids states = Ok s' -> st_forced s' = st_forced s.
Proof.
  unfold transit_to_state. destruct (negb _); [discriminate|]. destruct (negb _); [discriminate|]. now intros [= <-].
Qed.

Lemma act_transit a f state cond d w d' l w' : run_op (OpTransit a f state cond) d w = (Ok (d', l), w') -> distinct_members w ->
  d' = d /\ l = [] /\ only_story a w w' /\
  (forall i st, in_state w' a i st <->
     last_move f state cond d i st \/ never_moved f state cond d i /\ in_state w a i st) /\
  (forall i r, counter w' a i r <-> counter w a i r) /\
  (forall i, is_forced w' a i <-> is_forced w a i).
Proof.
  cbn [run_op]. intros H D. unfold side_effect in H. mstep H. injection H as <- <- ->.
  split; [reflexivity|]. split; [reflexivity|]. mstep E. apply lift_ok in E0 as [E0 ->].
  apply transit_pairs_spec in E0. subst x0. set (pairs := flat_map _ _) in E.
  assert (Ew : only_story a w w' /\ forall i, is_forced w' a i <-> is_forced w a i).
  { unfold story_transit in E. mstep E. apply deref_ok in E0 as [Hs ->]. mstep E. apply lift_ok in E0 as [E0 ->]. injection E as _ <-.
    split; [apply only_story_set|]. intros i. unfold is_forced. apply transit_forced in E0.
    cbn [w_stories set_stories]. rewrite (nth_put_same _ _ _ _ Hs). split.
    - intros (s2 & [= <-] & K). exists x0. split; [exact Hs|congruence].
    - intros (s2 & H2 & K). exists x1. split; [reflexivity|]. assert (s2 = x0) by congruence. subst. congruence. }
  destruct Ew as [Eo Efo]. split; [exact Eo|].
  assert (D' : distinct_members w').
  { pose proof (happen_distinct (HTransit a (map fst pairs) (map snd pairs)) w D) as K. cbn [happen] in K. destruct x. rewrite E in K. exact K. }
  destruct x. destruct (w_transit a _ _ w w' E D) as (H1 & H2 & H3 & _).
  assert (Ep : combine (map fst pairs) (map snd pairs) = pairs).
  { clear. induction pairs as [|[x y] l IH]; cbn; [reflexivity|]. now rewrite IH. }
  rewrite Ep in H1. split; [|split; [exact H3|exact Efo]]. intros i st. split.
  - intros K. destruct (in_dec key_dec i (map fst pairs)) as [Hi|Hi].
    + left. destruct (H1 i Hi) as (st' & El & Hst). rewrite (in_state_fun _ _ _ _ _ D' K Hst). now apply flat_moves_last.
    + right. split; [now apply flat_moves_never|]. now apply H2.
  - intros [K|[K1 K2]].
    + apply flat_moves_last in K. fold pairs in K. assert (Hi : In i (map fst pairs)).
      { destruct (in_dec key_dec i (map fst pairs)) as [Hi|Hi]; [exact Hi|]. apply last_value_None in Hi. congruence. }
      destruct (H1 i Hi) as (st' & El & Hst). congruence.
    + apply flat_moves_never in K1. now apply H2.
Qed.

(** ** reset_timers *)
Lemma act_reset a f d w d' l w' s g : run_op (OpReset a f) d w = (Ok (d', l), w') -> distinct_members w -> sound_states w a ->
  nth_error (w_stories w) a = Some s -> nth_error (w_tgens w) (st_tgen s) = Some g ->
  (f = None -> NoDup (df_index d)) ->
  d' = d /\ l = [] /\
  exists activities counters,
    (forall i, In i (map fst activities) <-> names_row f d i /\ ~ is_forced w a i) /\
    (activities <> [] -> exists g', tgen_generate g activities = Ok (counters, g')) /\
    (forall i q, In (i, q) activities -> exists st, in_state w a i st /\ activity_in s i st q) /\
    (forall i q, In (i, q) activities -> (q == 0)%Q -> counter w' a i (Some (-1)%Z)) /\
    (forall i q, In (i, q) activities -> ~ (q == 0)%Q -> exists t, In (i, t) counters /\ counter w' a i t) /\
    (forall i r, ~ (names_row f d i /\ ~ is_forced w a i) -> (counter w' a i r <-> counter w a i r)) /\
    (forall i st, in_state w' a i st <-> in_state w a i st) /\
    (forall b, b <> a -> nth_error (w_stories w') b = nth_error (w_stories w) b).
Proof.
  cbn [run_op]. intros H D So Hs Hg Nf. unfold side_effect in H. mstep H. injection H as <- <- ->.
  split; [reflexivity|]. split; [reflexivity|].
  assert (X : exists ids, story_reset a (Some ids) w = (Ok x, w') /\ NoDup ids /\ forall i, In i ids <-> names_row f d i).
  { destruct f as [c|].
    - mstep E. apply lift_ok in E0 as [E0 ->]. apply get_col_cells in E0. subst x0. eexists. split; [exact E|].
      split; [apply uniq_NoDup|]. intros i. rewrite uniq_In, in_map_iff. unfold dropna, names_row. split.
      + intros ([lab v] & <- & K). apply filter_In in K as [K Kn]. apply in_map_iff in K as (row & [= <- <-] & Hr). cbn [snd] in *.
        exists row. split; [exact Hr|]. split; [reflexivity|]. intros E1. rewrite E1 in Kn. discriminate.
      + intros (row & Hr & <- & Hn). exists (fst row, cell (df_cols d) (snd row) c). split; [reflexivity|]. apply filter_In. split.
        * apply in_map_iff. eauto.
        * cbn [snd]. destruct (is_na _) eqn:E1; [|reflexivity]. apply is_na_true in E1. contradiction.
    - eexists. split; [exact E|]. split; [now apply Nf|]. intros i. unfold df_index, names_row. rewrite in_map_iff. firstorder. }
  destruct X as (ids & Er & Nd & Hi). destruct x.
  destruct (w_reset a (Some ids) w w' s g Er D So Hs Hg Nd) as (act & cnt & H1 & H2 & H3 & H4 & H5 & H6 & H7 & H8).
  cbn [reset_names] in *. exists act, cnt. split; [intros i; rewrite <- Hi; apply H1|].
  repeat (split; [assumption|]). split; [|auto]. intros i r K. apply H6. now rewrite Hi.
Qed.

(** ** AttributeUpdate and population update *)
Lemma act_attr_update a idf copy d w d' l w' : run_op (OpAttrUpdate a idf copy) d w = (Ok (d', l), w') ->
  single_valued w a ->
  d' = d /\ l = [] /\ only_attribute a w w' /\ single_valued w' a /\ NoDup (map fst (listed d idf copy)) /\
  forall k v, holds w' a k v <->
    In (k, v) (listed d idf copy) \/ ~ In k (map fst (listed d idf copy)) /\ holds w a k v.
Proof.
  cbn [run_op]. intros H S. unfold side_effect in H. mstep H. injection H as <- <- ->.
  split; [reflexivity|]. split; [reflexivity|]. unfold if_rows in E. destruct (df_rows d) as [|r0 rs] eqn:Er.
  { injection E as _ <-. unfold listed. rewrite Er. cbn. split; [|split; [exact S|split; [constructor|intros; tauto]]].
    split; [split; [now destruct w|reflexivity]|reflexivity]. }
  mstep E. apply lift_ok in E0 as [E0 ->]. mstep E. apply lift_ok in E1 as [E1 ->]. apply get_col_cells in E0, E1. subst x0 x1.
  rewrite !map_map in E. cbn [snd] in E. rewrite combine_listed in E.
  destruct (NoDup_dec key_dec (map fst (listed d idf copy))) as [Nd|Nd].
  - destruct (update_points a (listed d idf copy) w S Nd) as (w2 & E2 & Ho & S2 & K). rewrite E2 in E. injection E as _ <-. auto.
  - destruct (update_repeated a (listed d idf copy) w S Nd) as (w2 & E2 & _). rewrite E2 in E. discriminate.
Qed.

Lemma rows_of_map {A B} (h : A -> val) (g : B -> A -> val) (copy : list B) rows :
  rows_of (map h rows) (map (fun af => map (g af) rows) copy) = map (fun row => (h row, map (fun af => g af row) copy)) rows.
Proof.
  unfold rows_of. rewrite map_length.
  enough (X : forall pre, map (fun '(k, i) => (i, map (fun c => nth k c VNA) (map (fun af => map (g af) (pre ++ rows)) copy)))
      (combine (seq (length pre) (length rows)) (map h rows)) = map (fun row => (h row, map (fun af => g af row) copy)) rows).
  { exact (X []). }
  induction rows as [|row rows IH]; intros pre; cbn [map length seq combine]; [reflexivity|]. f_equal.
  - f_equal. rewrite map_map. apply map_ext. intros af. rewrite map_app. cbn [map].
    replace (length pre) with (length (map (g af) pre)) by apply map_length. apply nth_middle.
  - specialize (IH (pre ++ [row])). rewrite app_length in IH. cbn [length] in IH. rewrite Nat.add_1_r, <- app_assoc in IH. exact IH.
Qed.

Lemma cell_copy (copy : dict string string) (v : string -> val) n field : NoDup (dkeys copy) -> dget n copy = Some field ->
  cell (map fst copy) (map (fun af => v (snd af)) copy) n = v field.
Proof.
  intros Nd H. induction copy as [|[n' f'] copy IH]; [discriminate|]. cbn [map fst snd cell]. unfold dkeys in Nd. cbn in Nd.
  apply NoDup_cons_iff in Nd as [Hn Nd]. cbn [dget] in H. change (String.eqb n n') with (keqb n n').
  destruct (keqb_spec n n'); [now injection H as ->|]. now apply IH.
Qed.

Lemma act_pop_update g w p po idf (copy : dict string string) d : built g w -> nth_error (w_pops w) p = Some po ->
  (forall n, In n (dkeys copy) <-> In n (dkeys (p_attrs po))) -> NoDup (dkeys copy) ->
  (forall n a, attribute_at w p n a -> single_valued w a) ->
  rectangular d -> In idf (df_cols d) -> (forall n field, dget n copy = Some field -> In field (df_cols d)) ->
  exists w', run_op (OpPopUpdate p idf copy) d w = (Ok (d, []), w') /\
    (forall i, member w' p i <-> member w p i \/ In i (column_of d idf)) /\
    (forall n a field, attribute_at w p n a -> dget n copy = Some field ->
       attribute_at w' p n a /\ single_valued w' a /\
       forall k v, holds w' a k v <->
         last_value k (listed d idf field) = Some v \/ ~ In k (column_of d idf) /\ holds w a k v).
Proof.
  intros B Hp Hn Nd Hsv R Hid Hf. set (rows := df_rows d).
  set (data := mkDf (map fst copy) (map (fun row : val * list val => (cell (df_cols d) (snd row) idf,
                 map (fun af : string * string => cell (df_cols d) (snd row) (snd af)) copy)) rows)).
  destruct (population_update g w p po data B Hp Hn Nd Hsv) as (w' & E & Hm & Ha & _).
  assert (Ei : df_index data = column_of d idf).
  { unfold df_index, column_of, data. cbn [df_rows]. rewrite map_map. reflexivity. }
  exists w'. split; [|split].
  - cbn [run_op]. unfold side_effect. unfold bindM at 1. unfold bindM at 1.
    assert (Ec : mapr (fun af : string * string => get_col d (snd af)) copy =
      Ok (map (fun af : string * string => map (fun row => (fst row, cell (df_cols d) (snd row) (snd af))) rows) copy)).
    { assert (Hc : forall n field, In (n, field) copy -> In field (df_cols d)).
      { intros n field H. apply (Hf n field). now apply In_dget. }
      clear - R Hc. subst rows. induction copy as [|[n field] copy IH]; cbn [map mapr]; [reflexivity|]. cbn [snd].
      rewrite (get_col_runs d field R) by (eapply Hc; now left). cbn [bind]. rewrite IH by (intros; eapply Hc; right; eauto). reflexivity. }
    rewrite Ec. cbn [lift]. unfold bindM at 1. rewrite (get_col_runs d idf R Hid). cbn [lift]. fold rows.
    replace (mkDf (map fst copy) (rows_of _ _)) with data; [rewrite E; reflexivity|]. unfold data. f_equal.
    rewrite !map_map. cbn [snd]. symmetry.
    rewrite (map_ext (fun x : string * string => map snd (map (fun row : val * list val => (fst row, cell (df_cols d) (snd row) (snd x))) rows))
       (fun x : string * string => map (fun row : val * list val => cell (df_cols d) (snd row) (snd x)) rows))
      by (intros af; now rewrite map_map).
    apply (rows_of_map (fun row : val * list val => cell (df_cols d) (snd row) idf)).
  - intros i. now rewrite Hm, Ei.
  - intros n a field Hat Hc. destruct (Ha n a Hat) as (H1 & H2 & H3). split; [exact H1|]. split; [exact H2|].
    intros k v. rewrite H3, Ei.
    replace (map (fun row => (fst row, cell (df_cols data) (snd row) n)) (df_rows data)) with (listed d idf field); [reflexivity|].
    unfold listed, data. cbn [df_rows df_cols]. rewrite map_map. apply map_ext. intros row. cbn [fst snd]. f_equal.
    symmetry. apply (cell_copy copy (fun f => cell (df_cols d) (snd row) f) n field Nd Hc).
Qed.

Lemma act_attr_update_runs a idf copy d w : single_valued w a -> rectangular d -> In idf (df_cols d) -> In copy (df_cols d) ->
  NoDup (column_of d idf) -> exists w', run_op (OpAttrUpdate a idf copy) d w = (Ok (d, []), w').
Proof.
  intros S R Hi Hc Nd. cbn [run_op]. unfold side_effect, if_rows. destruct (df_rows d) as [|r0 rs] eqn:Er; [eexists; reflexivity|].
  unfold bindM at 1. unfold bindM at 1. rewrite (get_col_runs d copy R Hc). cbn [lift]. unfold bindM at 1. rewrite (get_col_runs d idf R Hi).
  cbn [lift]. rewrite !map_map. cbn [snd]. rewrite combine_listed.
  destruct (update_points a (listed d idf copy) w S) as (w2 & E2 & _).
  { unfold listed. rewrite map_map. exact Nd. }
  rewrite E2. eexists. reflexivity.
Qed.

(** ** create_attribute leaves the relations of every relationship alone *)
Definition same_stored (w w' : world) : Prop :=
  forall r rel, nth_error (w_rels w) r = Some rel -> exists rel', nth_error (w_rels w') r = Some rel' /\ stored rel' = stored rel.
Lemma same_stored_eq w w' : w_rels w' = w_rels w -> same_stored w w'.
Proof. intros E r rel H. exists rel. split; [congruence|reflexivity]. Qed.

Lemma select_keeps_stored rel reqs discard o2o ov rows rel' : select_one rel reqs false discard o2o ov = Ok (rows, rel') ->
  stored rel' = stored rel.
Proof.
  unfold select_one. destruct (negb _); [discriminate|]. intros H. apply bind_ok in H as ([out st1] & _ & H).
  destruct (match out with [] => _ | _ => _ end) as [out' st2]. injection H as _ <-. reflexivity.
Qed.

Lemma create_attribute_stored p name iv ig ir w : same_stored w (snd (create_attribute p name iv ig ir w)).
Proof.
  unfold create_attribute. unfold bindM at 1. destruct (attr_table p iv ig ir w) as [res w1] eqn:E.
  assert (X : same_stored w w1).
  { unfold attr_table in E. unfold bindM at 1 in E. unfold deref at 1 in E. destruct (nth_error (w_pops w) p) as [po|]; [|injection E as _ <-; now apply same_stored_eq].
    destruct (p_size po =? 0)%Z; [injection E as _ <-; now apply same_stored_eq|]. destruct ir as [rn|].
    - unfold bindM at 1 in E. destruct (get_relationship p rn w) as [[r|e] w2] eqn:Er.
      + assert (w2 = w).
        { unfold get_relationship, bindM, deref, lift in Er. destruct (nth_error (w_pops w) p); [|congruence].
          destruct (dget rn (p_rels p0)); congruence. }
        subst w2. unfold bindM at 1 in E. unfold deref at 1 in E. destruct (nth_error (w_rels w) r) as [rel|] eqn:Hr; [|injection E as _ <-; now apply same_stored_eq].
        unfold bindM at 1 in E. destruct (select_one rel None false false false None) as [[rows rel']|e] eqn:Es; cbn [lift] in E.
        * unfold bindM in E. injection E as _ <-. apply select_keeps_stored in Es. intros r0 rel0 H0.
          cbn [w_rels set_rels]. destruct (Nat.eq_dec r0 r) as [->|N].
          -- rewrite (nth_put_same _ _ _ _ Hr). exists rel'. split; [reflexivity|]. congruence.
          -- rewrite nth_put_other by auto. eauto.
        * injection E as _ <-. now apply same_stored_eq.
      + injection E as _ <-. apply same_stored_eq. unfold get_relationship, bindM, deref, lift in Er.
        destruct (nth_error (w_pops w) p); [|congruence]. destruct (dget rn (p_rels p0)); congruence.
    - destruct iv as [vs|], ig as [g|]; try (injection E as _ <-; now apply same_stored_eq).
      unfold bindM at 1 in E. destruct (generate g (p_size po) w) as [res2 w2] eqn:Eg.
      assert (w_rels w2 = w_rels w).
      { unfold generate, bindM, get, lift in Eg. destruct (gen_generate (w_gens w) g (p_size po)) as [[vs gens]|e]; now injection Eg as _ <-. }
      apply same_stored_eq. destruct res2; [unfold lift in E|]; injection E as _ <-; assumption. }
  destruct res as [t|e]; [|exact X]. intros r rel H. apply X in H as (rel' & H & S). exists rel'. split; [|exact S].
  unfold bindM, deref, get. destruct (nth_error (w_pops w1) p); exact H.
Qed.
