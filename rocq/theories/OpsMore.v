(** Chains of operations: logs and index. *)
From Coq Require Import Permutation.
From Verif Require Import Base BaseFacts Rng RngFacts Utils UtilsFacts Relationship SpecRelationship RelationshipFacts RelationshipProps Frame Gens GensProps
  Clock Attribute AttributeFacts World Story Ops OpsFacts Fs Circus SpecStory StoryFacts StoryExec StoryProps SpecOps OpsProps OpsColumns StoryMore StoryBack.

Lemma project_cell cols cells target : project cols cells target = map (cell cols cells) target.
Proof.
  unfold project. apply map_ext. intros c. destruct (find_col c cols) as [i|] eqn:E.
  - symmetry. now apply find_col_cell.
  - apply find_col_None in E. symmetry. revert cells E. induction cols as [|c' cols IH]; intros cells E; [reflexivity|].
    destruct cells as [|v cells]; [reflexivity|]. cbn [cell]. destruct (String.eqb_spec c c') as [->|N]; [exfalso; apply E; now left|].
    apply IH. intros H. apply E. now right.
Qed.
Lemma cell_absent cols cells c : ~ In c cols -> cell cols cells c = VNA.
Proof.
  revert cells. induction cols as [|c' cols IH]; intros cells H; [reflexivity|]. destruct cells as [|v cells]; [reflexivity|].
  cbn [cell]. destruct (String.eqb_spec c c') as [->|N]; [exfalso; apply H; now left|]. apply IH. intros K. apply H. now right.
Qed.
Lemma cell_projected cols cells target c : (In c cols -> In c target) -> cell target (map (cell cols cells) target) c = cell cols cells c.
Proof.
  intros H. destruct (in_dec string_dec c target) as [Hi|Hn].
  - now apply cell_map_self.
  - rewrite (cell_absent target) by assumption. symmetry. apply cell_absent. auto.
Qed.

Lemma concat_appended a b : appended (Some a) (Some b) (Some (df_concat a b)).
Proof.
  exists (df_concat a b). split; [reflexivity|]. unfold df_concat. cbn [df_cols df_rows].
  set (cols := df_cols a ++ filter _ _).
  split; [|split].
  - eexists. split; [reflexivity|]. intros n. rewrite filter_In, negb_true_iff, <- not_true_iff_false, mem_In. tauto.
  - rewrite combine_length, map_length, seq_length, Nat.min_id, app_length, !map_length. reflexivity.
  - intros n. unfold column_of. cbn [df_cols df_rows].
    set (rows := map _ (df_rows a) ++ map _ (df_rows b)).
    transitivity (map (fun cells => cell cols cells n) rows).
    + rewrite <- (map_map snd (fun cells => cell cols cells n)). f_equal. apply map_snd_combine. now rewrite map_length, seq_length.
    + unfold rows. rewrite map_app, !map_map. f_equal; apply map_ext; intros r; rewrite project_cell; apply cell_projected.
      * intros Hi. apply in_app_iff. now left.
      * intros Hi. apply in_app_iff. destruct (mem n (df_cols a)) eqn:E; [left; now apply mem_In|].
        right. apply filter_In. now rewrite E.
Qed.

Lemma merged_appended x y : appended x y (merged_at df_concat x y).
Proof.
  destruct x as [a|], y as [b|]; try reflexivity. apply concat_appended.
Qed.

Lemma chain_sequential ops1 ops2 d w :
  match run_chain ops1 d w with
  | (Err e, w1) => run_chain (ops1 ++ ops2) d w = (Err e, w1)
  | (Ok (d1, l1), w1) =>
      match run_chain ops2 d1 w1 with
      | (Err e, w2) => run_chain (ops1 ++ ops2) d w = (Err e, w2)
      | (Ok (d2, l2), w2) => exists l, run_chain (ops1 ++ ops2) d w = (Ok (d2, l), w2) /\
          forall id, appended (dget id l1) (dget id l2) (dget id l)
      end
  end.
Proof.
  pose proof (chain_app ops1 ops2 d w) as H. destruct (run_chain ops1 d w) as [[[d1 l1]|e] w1]; [|exact H].
  destruct (run_chain ops2 d1 w1) as [[[d2 l2]|e] w2]; [|exact H]. destruct H as (l & H1 & H2).
  exists l. split; [exact H1|]. intros id. rewrite H2. apply merged_appended.
Qed.

Lemma chain_index ops d w d' l w' : run_chain ops d w = (Ok (d', l), w') -> NoDup (df_index d) ->
  NoDup (df_index d') /\ incl (df_index d') (df_index d) /\ length (df_rows d') <= length (df_rows d) /\
  ((forall o, In o ops -> selects_all o = false) -> sublist (df_index d') (df_index d)).
Proof.
  intros H Nd. destruct (run_op_index (OpChain ops) d w d' l w' H Nd) as (H1 & H2 & H3). split; [exact H1|]. split; [exact H2|].
  split.
  - unfold df_index in *. pose proof (NoDup_incl_length H1 H2) as L. now rewrite !map_length in L.
  - intros Hs. apply H3. cbn [selects_all]. destruct (existsb selects_all ops) eqn:E; [|reflexivity].
    apply existsb_exists in E as (o & Ho & E). rewrite Hs in E by assumption. discriminate.
Qed.

(** In an execution. *)
Lemma exec_index a w l w' s ops1 ops2 : execute a w = (Ok l, w') -> nth_error (w_stories w) a = Some s -> NoDup (st_ids s) ->
  st_ops s = ops1 ++ ops2 -> due_members s <> [] ->
  exists d1 l1 w1, run_chain ops1 (story_rows (st_field s) (due_members s)) (at_start a w) = (Ok (d1, l1), w1) /\
    NoDup (df_index d1) /\ incl (df_index d1) (due_members s) /\
    ((forall o, In o ops1 -> selects_all o = false) -> sublist (df_index d1) (due_members s)).
Proof.
  intros H Hs Nd Hops Hne. destruct (exec_runs_ops _ _ _ _ _ H Hs Hne) as (d' & w1 & Hr). rewrite Hops in Hr.
  pose proof (chain_app ops1 ops2 (story_rows (st_field s) (due_members s)) (at_start a w)) as K.
  destruct (run_chain ops1 _ (at_start a w)) as [[[d1 l1]|e] w2] eqn:E; [|congruence].
  exists d1, l1, w2. split; [reflexivity|].
  assert (Nd0 : NoDup (df_index (story_rows (st_field s) (due_members s)))) by (rewrite story_rows_index; now apply NoDup_due).
  destruct (chain_index _ _ _ _ _ _ E Nd0) as (A & B & _ & C). rewrite story_rows_index in *. auto.
Qed.

Lemma drop_row_exact c d w d' l w' : run_op (OpDropRow c) d w = (Ok (d', l), w') ->
  l = [] /\ w' = w /\ df_cols d' = df_cols d /\
  df_rows d' = filter (fun row => val_eqb (cell (df_cols d) (snd row) c) (VBool false)) (df_rows d).
Proof.
  cbn [run_op]. intros H. unfold transformed in H. mstep H. apply lift_ok in E as [E ->]. injection H as <- <- <-.
  apply drop_rows_ok in E as [E1 E2]. auto.
Qed.
Lemma drop_row_runs c d w : rectangular d -> In c (df_cols d) ->
  (forall row, In row (df_rows d) -> exists b, cell (df_cols d) (snd row) c = VBool b) ->
  exists d', run_op (OpDropRow c) d w = (Ok (d', []), w).
Proof.
  intros H1 H2 H3. destruct (drop_rows_runs d c H1 H2 H3) as (d' & E). exists d'. cbn [run_op]. unfold transformed, bindM, lift.
  now rewrite E.
Qed.

Lemma logger_runs id cols ex d w lg : emit_log cols ex d = Ok lg ->
  run_op (OpFieldLogger id cols ex) d w = (Ok (d, [(id, lg)]), w).
Proof. intros E. cbn [run_op]. unfold bindM, lift. now rewrite E. Qed.

(** ** Selections *)
Lemma NoDup_keys_perm {B} (l m : list (val * B)) : NoDup (map fst l) -> NoDup (map fst m) ->
  (forall x, In x l <-> In x m) -> Permutation l m.
Proof.
  intros H1 H2 H. apply NoDup_Permutation; [eapply NoDup_map_inv; eauto|eapply NoDup_map_inv; eauto|exact H].
Qed.

Lemma inner_merge_one d named (rows : list (val * val)) d' :
  merge_index JInner d (mkDf [named] (map (fun iv => (fst iv, [snd iv])) rows)) = Ok d' ->
  incl (map fst rows) (df_index d) -> ~ In named (df_cols d) ->
  NoDup (df_index d) /\ NoDup (map fst rows) /\
  exists kept vs, adds_cells d d' named kept vs /\ Permutation rows (combine (map fst kept) vs) /\
    forall row, In row (df_rows d) -> (In row kept <-> In (fst row) (map fst rows)).
Proof.
  intros H Hi Hn. unfold merge_index in H.
  destruct (nodupb (df_index d)) eqn:E1; [|discriminate].
  destruct (nodupb (df_index (mkDf [named] _))) eqn:E2; [|discriminate]. cbn [negb orb] in H. injection H as <-.
  apply nodupb_NoDup in E1, E2. unfold df_index in E2. cbn [df_rows] in E2. rewrite map_map in E2. cbn [fst] in E2.
  split; [exact E1|]. split; [exact E2|].
  set (kept := filter (fun row => mem (fst row) (map fst rows)) (df_rows d)).
  set (val_of := fun i => match dget i rows with Some v => v | None => VNA end).
  exists kept, (map (fun row => val_of (fst row)) kept).
  assert (Hd : forall i, dget i (map (fun iv : val * val => (fst iv, [snd iv])) rows) = option_map (fun v => [v]) (dget i rows)).
  { intros i. clear. induction rows as [|[j v] rows IH]; cbn; [reflexivity|]. destruct (keqb_spec i j); [reflexivity|apply IH]. }
  split; [|split].
  - split; [|split; [|split]].
    + cbn [df_cols map]. rewrite map_suffixed_fresh, suffixed_fresh; [reflexivity|exact Hn|].
      intros c H [E|[]]. subst. tauto.
    + unfold kept. apply sublist_filter.
    + now rewrite map_length.
    + cbn [df_rows df_cols]. unfold kept. clear kept Hi E1. induction (df_rows d) as [|r l IH]; cbn [flat_map filter]; [reflexivity|].
      rewrite Hd. destruct (dget (fst r) rows) as [v|] eqn:Eg; cbn [option_map].
      * assert (M : mem (fst r) (map fst rows) = true) by (apply mem_In; eapply dget_Some_key; eauto).
        rewrite M. cbn [map combine app fst snd]. unfold val_of at 1. rewrite Eg. f_equal. exact IH.
      * assert (M : mem (fst r) (map fst rows) = false) by (apply not_true_iff_false; rewrite mem_In; now apply dget_None).
        rewrite M. exact IH.
  - assert (Nk : NoDup (map fst kept)) by (unfold kept; now apply NoDup_map_filter).
    assert (Ec : combine (map fst kept) (map (fun row => val_of (fst row)) kept) = map (fun i => (i, val_of i)) (map fst kept)).
    { clear. induction kept as [|r l IH]; cbn; [reflexivity|]. now rewrite IH. }
    rewrite Ec. apply NoDup_keys_perm; [exact E2|rewrite map_map; cbn; now rewrite map_id|].
    intros [i v]. split.
    + intros Hin. pose proof (In_dget _ _ _ E2 Hin) as D. apply in_map_iff. exists i. unfold val_of. rewrite D. split; [reflexivity|].
      assert (Hx : In i (df_index d)) by (apply Hi; now apply (in_map fst _ _ Hin)).
      unfold df_index in Hx. apply in_map_iff in Hx as (row & Er & Hr). apply in_map_iff. exists row. split; [exact Er|].
      apply filter_In. split; [exact Hr|]. apply mem_In. rewrite Er. now apply (in_map fst _ _ Hin).
    + intros Hin. apply in_map_iff in Hin as (j & [= -> <-] & Hj). apply in_map_iff in Hj as (row & <- & Hr).
      apply filter_In in Hr as [_ Hr]. apply mem_In in Hr. unfold val_of.
      destruct (dget (fst row) rows) as [v|] eqn:D; [now apply dget_In in D|]. apply dget_None in D. tauto.
  - intros row Hr. unfold kept. rewrite filter_In, mem_In. tauto.
Qed.

Definition not_na (v : val) : bool := negb (is_na v).

Section Keyed.
  Context (key : val * list val -> val).
  Lemma keyed_get rows i f : NoDup (map fst rows) -> In (i, f) (map (fun row => (fst row, key row)) rows) ->
    forall row, In row rows -> fst row = i -> f = key row.
  Proof.
    intros N H row Hr <-. apply in_map_iff in H as (row' & E & Hr'). injection E as E1 E2.
    assert (row' = row); [|now subst].
    destruct row as [i c], row' as [i' c']. cbn in *. subst i'.
    pose proof (In_dget _ _ _ N Hr) as D1. pose proof (In_dget _ _ _ N Hr') as D2. congruence.
  Qed.

  Lemma sold_perm rows (sel : list (val * val * val)) kept (tos : list val) : NoDup (map fst rows) ->
    (forall i f t, In (i, f, t) sel -> In (i, f) (map (fun row => (fst row, key row)) rows)) ->
    incl kept rows -> length tos = length kept ->
    Permutation (map (fun x => (fst (fst x), snd x)) sel) (combine (map fst kept) tos) ->
    Permutation (sold sel) (filter (fun ft => negb (is_na (snd ft))) (combine (map key kept) tos)).
  Proof.
    intros N Hs Hk Hl P.
    set (kf := fun i => match dget i (map (fun row => (fst row, key row)) rows) with Some f => f | None => VNA end).
    set (g := fun it : val * val => if is_na (snd it) then [] else [(kf (fst it), snd it)]).
    assert (Nk : NoDup (map fst (map (fun row => (fst row, key row)) rows))) by (rewrite map_map; exact N).
    assert (E1 : sold sel = flat_map g (map (fun x => (fst (fst x), snd x)) sel)).
    { clear P. unfold sold. induction sel as [|[[i f] t] sel IH]; cbn; [reflexivity|].
      rewrite IH by (intros; eapply Hs; right; eauto). f_equal. unfold g. cbn. destruct (is_na t); [reflexivity|].
      unfold kf. rewrite (In_dget _ _ _ Nk (Hs i f t (or_introl eq_refl))). reflexivity. }
    rewrite E1. rewrite (Permutation_flat_map g P).
    assert (E2 : flat_map g (combine (map fst kept) tos) = filter (fun ft => negb (is_na (snd ft))) (combine (map key kept) tos)).
    { clear P E1 Hs. revert tos Hl. induction kept as [|row kept IH]; intros [|t tos] Hl; cbn; try reflexivity; try discriminate.
      rewrite IH by (auto using incl_cons_inv; try (intros x Hx; apply Hk; now right); now injection Hl).
      unfold g at 1. cbn. destruct (is_na t); [reflexivity|]. cbn. unfold kf.
      assert (Hin : In (fst row, key row) (map (fun row => (fst row, key row)) rows)).
      { apply in_map_iff. exists row. split; [reflexivity|]. apply Hk. now left. }
      now rewrite (In_dget _ _ _ Nk Hin). }
    rewrite E2. apply Permutation_refl.
  Qed.
End Keyed.

Lemma combine_map_l {A B C} (f : A -> B) (l : list A) (m : list C) :
  combine (map f l) m = map (fun p => (f (fst p), snd p)) (combine l m).
Proof. revert m. induction l as [|x l IH]; intros [|y m]; cbn; congruence. Qed.
Lemma NoDup_perm_filter {A} (f : A -> bool) l m : Permutation l m -> NoDup (filter f l) -> NoDup (filter f m).
Proof.
  intros P H. eapply Permutation_NoDup; [|exact H]. clear H. induction P; cbn.
  - constructor.
  - destruct (f x); auto.
  - destruct (f x), (f y); try apply Permutation_refl. apply perm_swap.
  - etransitivity; eauto.
Qed.

Lemma select_one_op r from named oto pop discard wt d w d' l w' rel :
  run_op (OpSelectOne r from named oto pop discard wt) d w = (Ok (d', l), w') ->
  nth_error (w_rels w) r = Some rel -> reachable rel -> ~ In named (df_cols d) ->
  let key row := cell (df_cols d) (snd row) from in
  exists rel' kept tos, w' = set_rels (set_nth r rel' (w_rels w)) w /\ l = [] /\ adds_cells d d' named kept tos /\
    (forall row t, In (row, t) (combine kept tos) ->
       related rel (key row) t \/ isolated rel (key row) /\ t = VNA /\ discard = false) /\
    (oto = false -> forall row, In row (df_rows d) ->
       (In row kept <-> discard = false \/ exists t, related rel (key row) t)) /\
    (oto = true -> NoDup (filter not_na tos)) /\
    (pop = false -> stored rel' = stored rel) /\
    (pop = true -> no_na_tos rel -> oto = true \/ NoDup (map key (df_rows d)) ->
       exists gone, Permutation (stored rel) (stored rel' ++ gone) /\
         Permutation (map fst gone) (filter (fun ft => not_na (snd ft)) (combine (map key kept) tos))).
Proof.
  intros H Hr Hreach Hn key. cbn [run_op] in H. unfold transformed in H. mstep H. injection H as <- <- <-.
  rename E into H. mstep H. apply lift_ok in E as [E ->]. apply get_col_cells in E. subst x0.
  destruct (reserved named); [discriminate|]. mstep H. unfold call_select_one in E.
  mstep E. apply deref_ok in E0 as [E0 ->]. rewrite Hr in E0. injection E0 as <-.
  mstep E. destruct x1 as [rows rel']. apply lift_ok in E0 as [E0 ->]. mstep E. injection E1 as <- <-.
  injection E as <- <-. apply lift_ok in H as [H ->]. unfold add_columns in H.
  change (map (fun row => (fst row, cell (df_cols d) (snd row) from)) (df_rows d)) with (map (fun row => (fst row, key row)) (df_rows d)) in E0.
  assert (Hrow := select_one_rows _ _ _ _ _ _ _ _ Hreach E0).
  replace (map (fun '(i, _, to) => (i, [to])) rows) with (map (fun iv : val * val => (fst iv, [snd iv])) (map (fun x => (fst (fst x), snd x)) rows)) in H
    by (rewrite map_map; apply map_ext; intros [[i f] t]; reflexivity).
  assert (Hincl : incl (map fst (map (fun x : val * val * val => (fst (fst x), snd x)) rows)) (df_index d)).
  { rewrite map_map. cbn. intros i Hi. apply in_map_iff in Hi as ([[i' f] t] & <- & Hi). apply Hrow in Hi as [Hi _].
    apply in_map_iff in Hi as (row & [= <- _] & Hi). cbn [fst]. unfold df_index. now apply in_map. }
  destruct (inner_merge_one _ _ _ _ H Hincl Hn) as (Nd & Nr & kept & tos & A & P & K).
  pose proof A as (A1 & A2 & A3 & A4).
  exists rel', kept, tos. split; [reflexivity|]. split; [reflexivity|]. split; [exact A|].
  split; [|split; [|split; [|split]]].
  - intros row t Hin.
    assert (Hin' : In (fst row, t) (combine (map fst kept) tos)).
    { rewrite combine_map_l. apply in_map_iff. now exists (row, t). }
    apply (Permutation_in _ (Permutation_sym P)) in Hin'. apply in_map_iff in Hin' as ([[i f] t'] & [= E1 E2] & Hin').
    subst. destruct (Hrow _ _ _ Hin') as [H1 H2].
    assert (f = key row); [|now subst]. eapply keyed_get; eauto.
    apply in_combine_l in Hin. eapply sublist_In; eauto.
  - intros -> row Hin. rewrite K by assumption. destruct (select_one_aligned' rel (map (fun row => (fst row, key row)) (df_rows d)) pop wt rows rel' Hreach) as [S1 S2].
    rewrite map_map. cbn [fst].
    assert (Hreq : In (fst row, key row) (map (fun row => (fst row, key row)) (df_rows d))) by (apply in_map_iff; now exists row).
    assert (Em : map (fun x : val * val * val => fst (fst x)) rows = map fst (map fst rows)) by (now rewrite map_map).
    rewrite Em. destruct discard.
    + destruct (S2 E0) as (ans & S3 & S4). rewrite S3. split.
      * intros Hi. right. apply in_map_iff in Hi as ([i f] & Ei & Hi). cbn in Ei. subst i. apply filter_In in Hi as [Hi Ha].
        apply S4 in Ha. assert (f = key row) by (eapply keyed_get; eauto). now subst.
      * intros [C|Ht]; [discriminate|]. apply in_map_iff. exists (fst row, key row). split; [reflexivity|].
        apply filter_In. split; [exact Hreq|]. now apply S4.
    + rewrite (S1 E0). split; [now left|]. intros _. rewrite map_map. cbn. now apply in_map.
  - intros ->. destruct (select_one_one_to_one _ _ _ _ _ _ _ E0) as [S1 _].
    eapply NoDup_perm_filter; [|exact S1].
    apply (Permutation_map snd) in P. rewrite map_map in P. cbn in P. rewrite map_snd_combine in P by (rewrite map_length; lia).
    exact P.
  - intros ->. eapply select_one_keeps; eauto.
  - intros -> Hna Hc. assert (Hc' : oto = true \/ NoDup (map snd (map (fun row => (fst row, key row)) (df_rows d)))).
    { destruct Hc as [->|Hc]; [now left|right]. rewrite map_map. exact Hc. }
    destruct (select_one_pop _ _ _ _ _ _ _ Hreach Hna Hc' E0) as (gone & G1 & G2). exists gone. split; [exact G1|].
    rewrite G2. eapply sold_perm; eauto.
    + intros i f t Hi. now apply Hrow in Hi as [Hi _].
    + intros y Hy. eapply sublist_In; eauto.
Qed.

Lemma flat_map_sublist {A B} (g : A -> list B) kept rows : sublist kept rows -> NoDup rows ->
  (forall x, In x rows -> ~ In x kept -> g x = []) -> flat_map g rows = flat_map g kept.
Proof.
  induction 1 as [|x l m H IH|x l m H IH]; intros N Hg; cbn; [reflexivity| |].
  - inversion N; subst. rewrite (Hg x), IH; auto.
    + intros y Hy. apply Hg. now right.
    + now left.
    + intros Hx. eapply sublist_In in Hx; eauto.
  - inversion N; subst. rewrite IH; auto. intros y Hy Hn. apply Hg; [now right|]. intros [->|K]; auto.
Qed.
Lemma given_absent i rows : ~ In i (map fst rows) -> given_to i rows = [].
Proof.
  induction rows as [|[j l] rows IH]; cbn; intros H; [reflexivity|]. destruct (keqb_spec i j) as [E|N]; [subst; tauto|]. apply IH. tauto.
Qed.
Lemma given_dget i l rows : NoDup (map fst rows) -> In (i, l) rows -> given_to i rows = l.
Proof.
  induction rows as [|[j m] rows IH]; cbn; intros N H; [tauto|]. inversion N; subst.
  destruct (keqb_spec i j) as [E|Hn].
  - destruct H as [[= _ ->]|H]; [reflexivity|]. subst. exfalso. apply H2. now apply (in_map fst _ _ H).
  - destruct H as [[= -> _]|H]; [tauto|]. now apply IH.
Qed.
Lemma count_of_vnat v n : count_of v = Ok n -> v = vnat n.
Proof.
  unfold count_of, as_int. destruct v as [| | |q|]; try discriminate. destruct (Qden q) eqn:E; try discriminate. cbn.
  destruct (Z.ltb_spec (Qnum q) 0); [discriminate|]. intros [= <-]. unfold vnat, vz. rewrite Z2Nat.id by assumption.
  f_equal. apply Qc_is_canon. unfold Q2Qc, this. rewrite Qred_correct. destruct q as [[a b] Hq]. cbn in *. subst b. reflexivity.
Qed.

Lemma select_many_op r from named qty pop discard d w d' l w' rel :
  run_op (OpSelectMany r from named qty pop discard) d w = (Ok (d', l), w') ->
  nth_error (w_rels w) r = Some rel -> reachable rel -> ~ In named (df_cols d) ->
  let key row := cell (df_cols d) (snd row) from in
  exists rel' kept tos ns, w' = set_rels (set_nth r rel' (w_rels w)) w /\ l = [] /\
    adds_cells d d' named kept (map VList tos) /\ length tos = length kept /\
    Forall2 (fun row n => cell (df_cols d) (snd row) qty = vnat n) (df_rows d) ns /\
    (discard = false -> forall row, In row (df_rows d) -> In row kept) /\
    (forall row n ts, In (row, n) (combine (df_rows d) ns) -> In (row, ts) (combine kept tos) -> length ts <= n) /\
    (forall f, f <> VNA ->
       let given := flat_map (fun rt => if val_eqb (key (fst rt)) f then snd rt else []) (combine kept tos) in
       let asked := nsum (map snd (filter (fun rn => val_eqb (key (fst rn)) f) (combine (df_rows d) ns))) in
       (exists left_over, Permutation (tos_stored rel f) (given ++ left_over)) /\
       length given = Nat.min asked (length (tos_stored rel f))) /\
    (pop = false -> stored rel' = stored rel) /\
    (pop = true -> NoDup (map key (df_rows d)) -> ~ In VNA (map key (df_rows d)) ->
       exists gone, Permutation (stored rel) (stored rel' ++ gone) /\
         Permutation (map fst gone) (flat_map (fun rt => map (pair (key (fst rt))) (snd rt)) (combine kept tos))) /\
    incl (stored rel') (stored rel) /\
    (forall row ts, In (row, ts) (combine kept tos) -> key row = VNA -> ts = []).
Proof.
  intros H Hr Hreach Hn key. cbn [run_op] in H. unfold transformed in H. mstep H. injection H as <- <- <-.
  rename E into H. mstep H. apply lift_ok in E as [E ->]. apply get_col_cells in E. subst x0.
  mstep H. apply lift_ok in E as [E ->]. apply get_col_cells in E. subst x0.
  mstep H. apply lift_ok in E as [E ->]. rename x0 into ns. apply mapr_ok_Forall2 in E.
  destruct (reserved named); [discriminate|]. mstep H. unfold call_select_many in E0.
  mstep E0. apply deref_ok in E1 as [E1 ->]. rewrite Hr in E1. injection E1 as <-.
  mstep E0. destruct x1 as [rows rel']. apply lift_ok in E1 as [E1 ->]. mstep E0. injection E2 as <- <-.
  injection E0 as <- <-. apply lift_ok in H as [H ->]. unfold add_columns in H.
  change (map (fun row => (fst row, cell (df_cols d) (snd row) from)) (df_rows d)) with (map (fun row => (fst row, key row)) (df_rows d)) in E1.
  assert (Hq : Forall2 (fun row n => cell (df_cols d) (snd row) qty = vnat n) (df_rows d) ns).
  { clear -E. revert ns E. induction (df_rows d) as [|row rs IH]; intros ns E; cbn in E; inversion E; subst; constructor; auto.
    cbn in *. now apply count_of_vnat. }
  pose proof (Forall2_length _ _ _ Hq) as Hlen.
  set (reqs := map (fun '(kv, n) => mkReq (fst kv) (snd kv) n) (combine (map (fun row => (fst row, key row)) (df_rows d)) ns)) in E1.
  assert (Er : reqs = map (fun rn => mkReq (fst (fst rn)) (key (fst rn)) (snd rn)) (combine (df_rows d) ns)).
  { unfold reqs. rewrite combine_map_l, map_map. reflexivity. }
  clearbody reqs. subst reqs.
  assert (Ei : map q_idx (map (fun rn => mkReq (fst (fst rn)) (key (fst rn)) (snd rn)) (combine (df_rows d) ns)) = df_index d).
  { rewrite map_map. cbn. rewrite <- (map_map fst fst). now rewrite map_fst_combine. }
  assert (Ef : map q_from (map (fun rn => mkReq (fst (fst rn)) (key (fst rn)) (snd rn)) (combine (df_rows d) ns)) = map key (df_rows d)).
  { rewrite map_map. cbn. rewrite <- (map_map fst key). now rewrite map_fst_combine. }
  replace (map (fun '(i, tos) => (i, [VList tos])) rows) with (map (fun iv : val * val => (fst iv, [snd iv])) (map (fun x => (fst x, VList (snd x))) rows)) in H
    by (rewrite map_map; apply map_ext; intros [i t]; reflexivity).
  assert (Nd0 : NoDup (df_index d)).
  { unfold merge_index in H. destruct (nodupb (df_index d)) eqn:En; [now apply nodupb_NoDup|discriminate]. }
  destruct (select_many_rows _ _ _ _ _ _ Hreach ltac:(rewrite Ei; exact Nd0) E1) as (S1 & S2 & S3 & S4 & S5).
  rewrite Ei in *.
  assert (Hincl : incl (map fst (map (fun x : val * list val => (fst x, VList (snd x))) rows)) (df_index d)).
  { rewrite map_map. exact S2. }
  destruct (inner_merge_one _ _ _ _ H Hincl Hn) as (Nd & Nr & kept & vs & A & P & K).
  pose proof A as (A1 & A2 & A3 & A4).
  set (tos := map (fun row : val * list val => given_to (fst row) rows) kept).
  assert (Ev : vs = map VList tos).
  { unfold tos. rewrite map_map. clear -P S1 A3. 
    assert (Q : forall i v, In (i, v) (combine (map fst kept) vs) -> v = VList (given_to i rows)).
    { intros i v Hi. apply (Permutation_in _ (Permutation_sym P)) in Hi. apply in_map_iff in Hi as ([i' ts] & [= <- <-] & Hi).
      f_equal. symmetry. now apply given_dget. }
    clear P. revert vs A3 Q. induction kept as [|row kept IH]; intros [|v vs] L Q; cbn in *; try discriminate; [reflexivity|].
    f_equal; [apply Q; now left|]. apply IH; [now injection L|]. intros i x Hx. apply Q. now right. }
  subst vs. rewrite map_length in A3.
  assert (Hg : forall row, In row (df_rows d) -> ~ In row kept -> given_to (fst row) rows = []).
  { intros row Hin Hk. apply given_absent. intros C. apply Hk, K; [exact Hin|]. rewrite map_map. exact C. }
  assert (Nrows : NoDup (df_rows d)) by (eapply NoDup_map_inv; exact Nd).
  assert (Hflat : forall B (g : val * list val -> list val -> list B), (forall row, g row [] = []) ->
    flat_map (fun row => g row (given_to (fst row) rows)) (df_rows d) = flat_map (fun rt => g (fst rt) (snd rt)) (combine kept tos)).
  { intros B g G0. rewrite (flat_map_sublist _ kept (df_rows d) A2 Nrows).
    - unfold tos. clear. induction kept as [|row kept IH]; cbn; [reflexivity|]. now rewrite IH.
    - intros row Hin Hk. now rewrite Hg. }
  exists rel', kept, tos, ns. split; [reflexivity|]. split; [reflexivity|]. split; [exact A|]. split; [exact A3|]. split; [exact Hq|].
  split; [|split; [|split; [|split; [|split; [|split; [exact (select_many_shrinks _ _ _ _ _ _ Hreach E1)|]]]]]].
  - intros -> row Hin. apply K; [exact Hin|]. rewrite map_map. cbn. specialize (S5 eq_refl).
    apply (Permutation_in _ (Permutation_sym S5)). unfold df_index. now apply in_map.
  - intros row n ts H1 H2. assert (ts = given_to (fst row) rows).
    { clear -H2. unfold tos in H2. induction kept as [|r0 kept IH]; cbn in H2; [tauto|]. destruct H2 as [[= -> <-]|H2]; auto. }
    subst ts. apply (S3 (mkReq (fst row) (key row) n)). apply in_map_iff. now exists (row, n).
  - intros f Hf given asked. destruct (S4 f Hf) as (lo & P1 & P2).
    assert (Eg : flat_map (fun q => given_to (q_idx q) rows) (requests_from f
       (map (fun rn => mkReq (fst (fst rn)) (key (fst rn)) (snd rn)) (combine (df_rows d) ns))) = given).
    { unfold given. rewrite <- (Hflat val (fun row ts => if val_eqb (key row) f then ts else [])) by (intros; now destruct (val_eqb _ _)).
      unfold requests_from. rewrite <- (map_fst_combine (df_rows d) ns Hlen) at 2.
      clear. induction (combine (df_rows d) ns) as [|rn l IH]; cbn; [reflexivity|].
      change (keqb (key (fst rn)) f) with (val_eqb (key (fst rn)) f). destruct (val_eqb (key (fst rn)) f); cbn; now rewrite IH. }
    assert (Ea : nsum (map q_qty (requests_from f
       (map (fun rn => mkReq (fst (fst rn)) (key (fst rn)) (snd rn)) (combine (df_rows d) ns)))) = asked).
    { unfold asked, requests_from. clear. induction (combine (df_rows d) ns) as [|rn l IH]; cbn; [reflexivity|].
      change (keqb (key (fst rn)) f) with (val_eqb (key (fst rn)) f). destruct (val_eqb (key (fst rn)) f); cbn; now rewrite IH. }
    rewrite Eg, Ea in *. split; [now exists lo|exact P2].
  - intros ->. eapply select_many_keeps; eauto.
  - intros -> Nk Hna. rewrite <- Ef in Nk, Hna.
    destruct (select_many_pops _ _ _ _ _ Hreach ltac:(rewrite Ei; exact Nd0) Nk Hna E1) as (gone & G1 & G2). exists gone. split; [exact G1|].
    rewrite G2. match goal with |- Permutation ?a ?b => cut (a = b); [intros ->; apply Permutation_refl|] end.
    rewrite <- (Hflat _ (fun row ts => map (pair (key row)) ts)) by reflexivity.
    rewrite <- (map_fst_combine (df_rows d) ns Hlen) at 2. clear. induction (combine (df_rows d) ns) as [|rn l IH]; cbn; [reflexivity|].
    now rewrite IH.
  - intros row ts Hts Hna. assert (In row (df_rows d)) as Hrow by (eapply sublist_In; [exact A2|]; eapply in_combine_l; eauto).
    assert (Ets : ts = given_to (fst row) rows).
    { clear - Hts. unfold tos in Hts. induction kept as [|r0 kept IH]; cbn in Hts; [tauto|]. destruct Hts as [[= -> <-]|Hts]; auto. }
    assert (exists n, In (row, n) (combine (df_rows d) ns)) as (n & Hrn).
    { clear - Hrow Hlen. revert ns Hlen. induction (df_rows d) as [|r0 l IH]; intros [|n ns] Hlen; cbn in *; try discriminate; [destruct Hrow|]. destruct Hrow as [->|Hrow]; [exists n; now left|].
      injection Hlen as Hlen. destruct (IH Hrow ns Hlen) as (m & Hm). exists m. now right. }
    rewrite Ets. refine (select_many_na _ _ _ _ _ _ Hreach _ E1 (mkReq (fst row) (key row) n) _ Hna); [rewrite Ei; exact Nd0|]. apply in_map_iff. now exists (row, n).
Qed.

Lemma select_all_op r from named d w d' l w' rel :
  run_op (OpSelectAll r from named) d w = (Ok (d', l), w') ->
  nth_error (w_rels w) r = Some rel -> reachable rel -> homogeneous rel -> ~ In named (df_cols d) ->
  let key row := cell (df_cols d) (snd row) from in
  exists kept tos, w' = w /\ l = [] /\ df_cols d' = df_cols d ++ [named] /\ length tos = length kept /\
    df_rows d' = map (fun rt => (fst (fst rt), snd (fst rt) ++ [VList (snd rt)])) (combine kept tos) /\
    NoDup kept /\
    (forall row, In row kept <-> In row (df_rows d) /\ exists t, related rel (key row) t) /\
    (forall row ts, In (row, ts) (combine kept tos) -> Permutation ts (tos_stored rel (key row))) /\
    (NoDup (map key (df_rows d)) -> sublist kept (df_rows d)).
Proof.
  intros H Hr Hreach Hh Hn key. cbn [run_op] in H. unfold transformed in H. mstep H. injection H as <- <- <-.
  rename E into H. mstep H. apply deref_ok in E as [E ->]. rewrite Hr in E. injection E as <-.
  apply lift_ok in H as [H ->]. unfold select_all in H. destruct (reserved named); [discriminate|].
  destruct (nodupb (df_index d)) eqn:En; [|discriminate]. cbn [negb] in H. apply nodupb_NoDup in En.
  apply bind_ok in H as (i & Ei & H). injection H as <-.
  assert (Ek : forall row, nth i (snd row) VNA = key row) by (intros row; symmetry; now apply col_pos_cell).
  rewrite (map_ext _ _ Ek). set (froms := uniq (map key (df_rows d))).
  destruct (select_all_exact rel froms Hreach Hh) as (S1 & S2 & S3).
  set (sel := select_all_horizontal rel froms) in *. clearbody sel.
  assert (Nf : NoDup froms) by apply uniq_NoDup.
  assert (Nrows : NoDup (df_rows d)) by (eapply NoDup_map_inv; exact En).
  set (K := fun f => match dget f sel with Some _ => filter (fun row => keqb (key row) f) (df_rows d) | None => [] end).
  set (T := fun f => match dget f sel with Some ts => map (fun _ => ts) (filter (fun row => keqb (key row) f) (df_rows d)) | None => [] end).
  assert (HK : forall f row, In row (K f) <-> In row (df_rows d) /\ key row = f /\ In f (map fst sel)).
  { intros f row. unfold K. destruct (dget f sel) as [ts|] eqn:D.
    - rewrite filter_In, keqb_eq. apply dget_Some_key in D. intuition.
    - apply dget_None in D. cbn. tauto. }
  assert (HT : forall f, length (T f) = length (K f)).
  { intros f. unfold K, T. destruct (dget f sel); [apply map_length|reflexivity]. }
  assert (HTK : forall fs, combine (flat_map K fs) (flat_map T fs) = flat_map (fun f => combine (K f) (T f)) fs).
  { clear -HT. intros fs. induction fs as [|f fs IH]; cbn; [reflexivity|]. rewrite <- IH.
    generalize (HT f). generalize (K f) (T f). clear. intros k. induction k as [|x k IH]; intros [|y t] L; cbn in *; try discriminate; [reflexivity|].
    f_equal. apply IH. now injection L. }
  exists (flat_map K froms), (flat_map T froms). split; [reflexivity|]. split; [reflexivity|].
  split; [|split; [|split; [|split; [|split; [|split]]]]].
  - cbn [df_cols]. rewrite map_suffixed_fresh, suffixed_fresh; [reflexivity|exact Hn|]. intros c H [E|[]]. subst. tauto.
  - clear -HT. generalize froms. intros fs. induction fs as [|f fs IH]; cbn; [reflexivity|]. now rewrite !app_length, IH, HT.
  - cbn [df_rows]. rewrite HTK. generalize froms. intros fs. induction fs as [|f fs IH]; cbn; [reflexivity|]. rewrite map_app, IH. f_equal.
    unfold K, T. destruct (dget f sel) as [ts|]; [|reflexivity].
    rewrite (filter_ext (fun row => keqb (nth i (snd row) VNA) f) (fun row => keqb (key row) f)) by (intros; now rewrite Ek).
    generalize (filter (fun row => keqb (key row) f) (df_rows d)). clear. intros rows. induction rows as [|r rows IH]; cbn; [reflexivity|].
    now rewrite IH.
  - clear -HK Nf Nrows. induction Nf as [|f fs Hf Nf IH]; cbn; [constructor|]. apply NoDup_app_intro.
    + unfold K. destruct (dget f sel); [now apply NoDup_filter|constructor].
    + exact IH.
    + intros row H1 H2. apply HK in H1 as (_ & H1 & _). apply in_flat_map in H2 as (g & Hg & H2). apply HK in H2 as (_ & H2 & _). congruence.
  - intros row. rewrite in_flat_map. split.
    + intros (f & Hf & H). apply HK in H as (H1 & <- & H2). split; [exact H1|]. now apply S2 in H2 as [_ H2].
    + intros [H1 H2]. exists (key row). assert (In (key row) froms) by (unfold froms; apply uniq_In; now apply in_map).
      split; [assumption|]. apply HK. split; [exact H1|]. split; [reflexivity|]. now apply S2.
  - intros row ts. rewrite HTK. intros H. apply in_flat_map in H as (f & Hf & H).
    pose proof (in_combine_l _ _ _ _ H) as H1. apply HK in H1 as (H1 & <- & H2).
    apply S3. unfold T in H. destruct (dget (key row) sel) as [ts'|] eqn:D; [|destruct (K (key row)); contradiction].
    apply in_combine_r in H. apply in_map_iff in H as (_ & -> & _). now apply dget_In.
  - intros Nk. unfold froms. rewrite uniq_id by assumption. 
    assert (Hs : forall rs, sublist rs (df_rows d) -> sublist (flat_map K (map key rs)) rs).
    { induction rs as [|row rs IH]; intros Hs; cbn; [constructor|].
      assert (Hin : In row (df_rows d)) by (eapply sublist_In; [exact Hs|now left]).
      assert (Hrs : sublist rs (df_rows d)) by (eapply sublist_trans; [|exact Hs]; apply sub_skip, sublist_refl).
      assert (E : K (key row) = [row] \/ K (key row) = []).
      { unfold K. destruct (dget (key row) sel); [left|now right]. clear -Hin Nk.
        induction (df_rows d) as [|r0 rows IH]; [contradiction|]. cbn in *. inversion Nk; subst.
        destruct (keqb_spec (key r0) (key row)) as [E|N].
        - destruct Hin as [->|Hin]; [|exfalso; apply H1; rewrite E; now apply in_map]. f_equal. apply filter_nil_iff.
          intros x Hx. destruct (keqb_spec (key x) (key row)) as [E2|]; [|reflexivity]. exfalso. apply H1. rewrite <- E2. now apply in_map.
        - destruct Hin as [->|Hin]; [tauto|]. now apply IH. }
      destruct E as [-> | ->]; cbn; [apply sub_keep|apply sub_skip]; now apply IH. }
    apply Hs, sublist_refl.
Qed.

(** ** Side effects on relationships *)
Lemma set_nth_same {A} i (x : A) l : nth_error l i = Some x -> set_nth i x l = l.
Proof. revert i. induction l as [|y l IH]; intros [|i] H; cbn in *; try congruence. f_equal. now apply IH. Qed.

Lemma rel_add_op r from item d w d' l w' rel :
  run_op (OpRelAdd r from item) d w = (Ok (d', l), w') -> nth_error (w_rels w) r = Some rel -> reachable rel ->
  exists rel', w_rels w' = set_nth r rel' (w_rels w) /\
    Permutation (stored rel') (stored rel ++
      map (fun row => (cell (df_cols d) (snd row) from, cell (df_cols d) (snd row) item, 1%Q)) (df_rows d)).
Proof.
  cbn [run_op]. intros H Hr Hreach. unfold side_effect, if_rows in H. mstep H. injection H as <- <- <-.
  destruct (df_rows d) as [|row0 rows] eqn:Ed.
  - injection E as <- <-. exists rel. rewrite set_nth_same by assumption. split; [reflexivity|]. now rewrite app_nil_r.
  - mstep E. apply lift_ok in E0 as [E0 ->]. apply get_col_cells in E0. subst x0.
    mstep E. apply lift_ok in E0 as [E0 ->]. apply get_col_cells in E0. subst x0.
    rewrite !map_map in E. cbn [snd] in E. rewrite Ed in E. unfold rel_add in E.
    mstep E. apply deref_ok in E0 as [E0 ->]. rewrite Hr in E0. injection E0 as <-.
    mstep E. apply lift_ok in E0 as [E0 ->]. injection E as <- <-. rename x0 into rel'.
    exists rel'. split; [reflexivity|]. rewrite (add_exact _ _ _ _ _ Hreach E0). apply Permutation_app_head.
    match goal with |- Permutation ?a ?b => cut (a = b); [intros ->; apply Permutation_refl|] end.
    clear. generalize (row0 :: rows). intros l. cbn [weights_list].
    induction l as [|x l IH]; [reflexivity|]. cbn. f_equal. exact IH.
Qed.

Lemma rel_add_grouped_op r from items d w d' l w' rel :
  run_op (OpRelAddGrouped r from items) d w = (Ok (d', l), w') -> nth_error (w_rels w) r = Some rel -> reachable rel ->
  exists rel', w_rels w' = set_nth r rel' (w_rels w) /\
    Permutation (stored rel') (stored rel ++
      flat_map (fun row => map (fun t => (cell (df_cols d) (snd row) from, t, 1%Q))
                               (list_of (cell (df_cols d) (snd row) items))) (df_rows d)).
Proof.
  cbn [run_op]. intros H Hr Hreach. unfold side_effect, if_rows in H. mstep H. injection H as <- <- <-.
  destruct (df_rows d) as [|row0 rows] eqn:Ed.
  - injection E as <- <-. exists rel. rewrite set_nth_same by assumption. split; [reflexivity|]. now rewrite app_nil_r.
  - mstep E. apply lift_ok in E0 as [E0 ->]. apply get_col_cells in E0. subst x0.
    mstep E. apply lift_ok in E0 as [E0 ->]. apply get_col_cells in E0. subst x0.
    mstep E. apply lift_ok in E0 as [E0 ->]. rename x0 into lists.
    rewrite map_map in E. cbn [snd] in E. unfold rel_add_grouped in E.
    mstep E. apply deref_ok in E1 as [E1 ->]. rewrite Hr in E1. injection E1 as <-.
    mstep E. apply lift_ok in E1 as [E1 ->]. injection E as <- <-. rename x0 into rel'.
    exists rel'. split; [reflexivity|]. rewrite (add_grouped_exact _ _ _ _ Hreach E1). apply Permutation_app_head.
    rewrite Ed in *. clear -E0. revert lists E0. generalize (row0 :: rows). intros l.
    induction l as [|x l IH]; intros lists E0; [injection E0 as <-; constructor|].
    cbn [map mapr snd] in E0. unfold as_list at 1 in E0.
    destruct (cell (df_cols d) (snd x) items) eqn:Ec; try discriminate. cbn [bind] in E0.
    apply bind_ok in E0 as (ys & E1 & E0). injection E0 as <-. cbn [map combine flat_map]. rewrite Ec. cbn [list_of].
    apply Permutation_app_head, IH. exact E1.
Qed.

Lemma chain_single o d w :
  match run_op o d w with
  | (Err e, w1) => run_chain [o] d w = (Err e, w1)
  | (Ok (d1, l1), w1) => exists l, run_chain [o] d w = (Ok (d1, l), w1) /\ forall id, dget id l = dget id l1
  end.
Proof.
  destruct (run_op o d w) as [[[d1 l1]|e] w1] eqn:Eo; [|unfold run_chain; cbn [run_list]; unfold bindM at 1; now rewrite Eo].
  unfold run_chain. cbn [run_list]. unfold bindM at 1. rewrite Eo.
  destruct (merge_logs [] l1) as (l & E & Hd). unfold bindM, lift. rewrite E. exists l. split; [reflexivity|].
  intros id. rewrite Hd. cbn. now destruct (dget id l1).
Qed.
Lemma log_of_columns id cols d w :
  NoDup (df_cols d) -> incl cols (df_cols d) -> cols <> [] ->
  run_op (field_logger id (Some cols) []) d w =
  (Ok (d, [(id, mkDf cols (map (fun row => (fst row, map (cell (df_cols d) (snd row)) cols)) (df_rows d)))]), w).
Proof.
  intros H1 H2 H3. unfold field_logger. rewrite app_nil_r. apply logger_runs. now apply emit_plain.
Qed.
Lemma remove_raises r from item d w :
  df_rows d <> [] -> run_op (OpRelRemove r from item) d w = (Err AttributeError, w).
Proof. intros H. cbn [run_op]. unfold side_effect, if_rows. destruct (df_rows d); [tauto|reflexivity]. Qed.
Lemma neighbour_counts r f n d w d' l w' rel :
  run_op (OpNeighbours r f n) d w = (Ok (d', l), w') -> ~ In n (df_cols d) ->
  nth_error (w_rels w) r = Some rel -> reachable rel ->
  w' = w /\
  adds_column d d' n (map (fun row => vnat (length (tos_stored rel (cell (df_cols d) (snd row) f)))) (df_rows d)).
Proof.
  intros H Hn Hr Hreach. destruct (neighbours_adds _ _ _ _ _ _ _ _ H Hn) as (rel' & E & -> & A).
  rewrite Hr in E. injection E as <-. split; [reflexivity|].
  replace (map (fun row => vnat (length (tos_stored rel (cell (df_cols d) (snd row) f)))) (df_rows d))
    with (map (fun row => vnat (neighbourhood_size rel (cell (df_cols d) (snd row) f))) (df_rows d)); [exact A|].
  apply map_ext. intros row. f_equal.
  apply (neighbourhood_count rel [cell (df_cols d) (snd row) f] (cell (df_cols d) (snd row) f)); [exact Hreach|].
  unfold get_neighbourhood_size. cbn. now rewrite keqb_refl.
Qed.
