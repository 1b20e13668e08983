(** Properties of operations and chains. *)
From Verif Require Import Base BaseFacts Rng Utils UtilsFacts Relationship RelationshipFacts Frame Gens Clock Attribute AttributeFacts World Story Ops OpsFacts SpecOps.

(** ** Chains *)
Lemma run_list_app run o1 o2 d l w :
  run_list run (o1 ++ o2) d l w = bindM (run_list run o1 d l) (fun '(d1, l1) => run_list run o2 d1 l1) w.
Proof.
  revert d l w. induction o1 as [|o o1 IH]; intros d l w; cbn [app run_list]; [reflexivity|].
  unfold bindM in *. destruct (run o d w) as [[[d1 l1]|e] w1]; [|reflexivity].
  destruct (lift _ w1) as [[l2|e] w2]; [|reflexivity].
  rewrite IH. reflexivity.
Qed.

Lemma merge_logs (l1 l2 : logs) : exists l, merge_dicts [l1; l2] (Some df_concat) = Ok l /\
  forall id, dget id l = merged_at df_concat (dget id l1) (dget id l2).
Proof.
  cbn [merge_dicts fold_left bind].
  destruct (merge_total df_concat l1 l2) as [d Hd]. rewrite Hd. exists d. split; [reflexivity|].
  now apply merge_dget.
Qed.

Lemma find_col_app c a b : find_col c (a ++ b) =
  match find_col c a with Some i => Some i | None => option_map (fun i => length a + i) (find_col c b) end.
Proof.
  induction a as [|x a IH]; cbn.
  - destruct (find_col c b); reflexivity.
  - destruct (keqb c x); [reflexivity|]. rewrite IH. destruct (find_col c a); [reflexivity|].
    destruct (find_col c b); reflexivity.
Qed.

Lemma find_col_None c l : find_col c l = None <-> ~ In c l.
Proof.
  induction l as [|x l IH]; cbn; [tauto|].
  destruct (keqb_spec c x) as [E|N].
  - subst. split; [discriminate|]. intros H. exfalso. apply H. auto.
  - destruct (find_col c l) eqn:E; cbn.
    + split; [discriminate|]. intros H. exfalso. apply H. right. destruct (in_dec string_dec c l); auto.
      apply IH in n0. discriminate.
    + split; [|auto]. intros _ [H|H]; [congruence|]. now apply IH.
Qed.

Lemma find_col_lt c l i : find_col c l = Some i -> i < length l.
Proof.
  revert i. induction l as [|x l IH]; cbn; intros i H; [discriminate|].
  destruct (keqb c x); [injection H as <-; lia|]. destruct (find_col c l); [|discriminate].
  injection H as <-. specialize (IH _ eq_refl). lia.
Qed.

Lemma find_col_nth c l i : find_col c l = Some i -> nth_error l i = Some c.
Proof.
  revert i. induction l as [|x l IH]; cbn; intros i H; [discriminate|].
  destruct (keqb_spec c x) as [E|N]; [injection H as <-; now subst|]. destruct (find_col c l); [|discriminate].
  injection H as <-. cbn. auto.
Qed.

(** the cell of a projected row *)
Lemma project_nth cols cells target c i : find_col c target = Some i ->
  nth i (project cols cells target) VNA =
  match find_col c cols with Some j => nth j cells VNA | None => VNA end.
Proof.
  intros H. unfold project.
  rewrite (nth_indep _ _ (match find_col c cols with Some j => nth j cells VNA | None => VNA end))
    by (rewrite map_length; eapply find_col_lt; eauto).
  rewrite (map_nth (fun c => match find_col c cols with Some j => nth j cells VNA | None => VNA end)).
  f_equal. now rewrite (nth_error_nth _ _ _ (find_col_nth _ _ _ H)).
Qed.

Definition union_cols (a b : list string) : list string := a ++ filter (fun c => negb (mem c a)) b.

Lemma union_cols_In c a b : In c (union_cols a b) <-> In c a \/ In c b.
Proof.
  unfold union_cols. rewrite in_app_iff, filter_In, negb_true_iff.
  destruct (mem c a) eqn:E; [apply mem_In in E|apply mem_not_In in E]; intuition congruence.
Qed.

Lemma project_project cols cells mid target : (forall c, In c target -> In c cols -> In c mid) ->
  project mid (project cols cells mid) target = project cols cells target.
Proof.
  intros H. unfold project at 1 3. apply map_ext_in. intros c Hc.
  destruct (find_col c mid) as [i|] eqn:E.
  - now rewrite (project_nth _ _ _ _ _ E).
  - apply find_col_None in E. destruct (find_col c cols) as [j|] eqn:E2; [|reflexivity].
    exfalso. apply E, H; [exact Hc|]. apply find_col_nth in E2. eapply nth_error_In; eauto.
Qed.

Lemma union_cols_assoc a b c : union_cols (union_cols a b) c = union_cols a (union_cols b c).
Proof.
  unfold union_cols. rewrite <- app_assoc. f_equal. rewrite filter_app. f_equal.
  induction c as [|x c IH]; cbn; [reflexivity|].
  destruct (mem x b) eqn:Eb; destruct (mem x a) eqn:Ea; cbn [negb].
  all: destruct (mem x (a ++ filter (fun c0 => negb (mem c0 a)) b)) eqn:Eu; cbn [negb filter]; rewrite ?Ea; cbn [negb];
       try (rewrite IH; reflexivity).
  all: exfalso; first [apply mem_In in Eu|apply mem_not_In in Eu];
    change (a ++ filter (fun c0 => negb (mem c0 a)) b) with (union_cols a b) in Eu; rewrite union_cols_In in Eu;
    rewrite <- !mem_In in Eu; intuition congruence.
Qed.

Lemma df_concat_assoc a b c : df_concat (df_concat a b) c = df_concat a (df_concat b c).
Proof.
  unfold df_concat at 1 3. cbn [df_cols].
  change (df_cols (df_concat a b)) with (union_cols (df_cols a) (df_cols b)).
  change (df_cols (df_concat b c)) with (union_cols (df_cols b) (df_cols c)).
  fold (union_cols (union_cols (df_cols a) (df_cols b)) (df_cols c)).
  fold (union_cols (df_cols a) (union_cols (df_cols b) (df_cols c))).
  rewrite union_cols_assoc. set (cols := union_cols (df_cols a) (union_cols (df_cols b) (df_cols c))).
  assert (E : map (fun r => project (union_cols (df_cols a) (df_cols b)) (snd r) cols) (df_rows (df_concat a b)) ++
              map (fun r => project (df_cols c) (snd r) cols) (df_rows c) =
              map (fun r => project (df_cols a) (snd r) cols) (df_rows a) ++
              map (fun r => project (union_cols (df_cols b) (df_cols c)) (snd r) cols) (df_rows (df_concat b c))).
  { assert (Sn : forall (f : list val -> list val) (rows : list (list val)),
              map (fun r => f (snd r)) (combine (map vnat (seq 0 (length rows))) rows) = map f rows).
    { intros f rows. generalize 0. induction rows as [|r rows IH]; intros n; cbn; [reflexivity|]. now rewrite IH. }
    unfold df_concat at 1 2. cbn [df_rows df_cols].
    fold (union_cols (df_cols a) (df_cols b)). fold (union_cols (df_cols b) (df_cols c)).
    rewrite (Sn (fun cells => project (union_cols (df_cols a) (df_cols b)) cells cols)).
    rewrite (Sn (fun cells => project (union_cols (df_cols b) (df_cols c)) cells cols)).
    rewrite !map_app, !map_map, <- app_assoc. f_equal; [|f_equal]; apply map_ext; intros r.
    - apply project_project. intros x _ Hx. apply union_cols_In. auto.
    - rewrite !project_project; [reflexivity| |]; intros x _ Hx; apply union_cols_In; auto.
    - symmetry. apply project_project. intros x _ Hx. apply union_cols_In. auto. }
  rewrite E. reflexivity.
Qed.

Lemma merged_at_assoc (a b c : option df) :
  merged_at df_concat (merged_at df_concat a b) c = merged_at df_concat a (merged_at df_concat b c).
Proof. destruct a, b, c; cbn; rewrite ?df_concat_assoc; reflexivity. Qed.

(** previous logs are only prepended *)
Lemma run_list_logs run ops d l w :
  match run_list run ops d [] w with
  | (Ok (d', l'), w') => exists l2, run_list run ops d l w = (Ok (d', l2), w') /\
      forall id, dget id l2 = merged_at df_concat (dget id l) (dget id l')
  | (Err e, w') => run_list run ops d l w = (Err e, w')
  end.
Proof.
  assert (H : forall ops d l0 l w, exists r w', run_list run ops d l0 w = (r, w') /\
    match r with
    | Ok (d', l0') => exists x l', run_list run ops d l w = (Ok (d', l'), w') /\
        (forall id, dget id l0' = merged_at df_concat (dget id l0) (x id)) /\
        (forall id, dget id l' = merged_at df_concat (dget id l) (x id))
    | Err e => run_list run ops d l w = (Err e, w')
    end).
  { clear. induction ops as [|o ops IH]; intros d l0 l w; cbn [run_list].
    - exists (Ok (d, l0)), w. split; [reflexivity|]. exists (fun _ => None), l.
      split; [reflexivity|]. split; intros id; now destruct (dget id _).
    - unfold bindM at 1. destruct (run o d w) as [[[d1 s]|e] w1] eqn:E.
      2:{ exists (Err e), w1. split; [reflexivity|]. unfold bindM. now rewrite E. }
      destruct (merge_logs l0 s) as (m0 & M0 & D0). destruct (merge_logs l s) as (m & M & D).
      destruct (IH d1 m0 m w1) as (r & w' & Er & Hr).
      exists r, w'. split; [unfold bindM, lift; rewrite M0; exact Er|].
      destruct r as [[d' l0']|e].
      + destruct Hr as (x & l' & E1 & X0 & X1).
        exists (fun id => merged_at df_concat (dget id s) (x id)), l'. split.
        * unfold bindM, lift. rewrite E, M. exact E1.
        * split; intros id; [rewrite X0, D0|rewrite X1, D]; apply merged_at_assoc.
      + unfold bindM, lift. rewrite E, M. exact Hr. }
  destruct (H ops d [] l w) as (r & w' & E & Hr). rewrite E.
  destruct r as [[d' l0']|e]; [|exact Hr].
  destruct Hr as (x & l' & E1 & X0 & X1). exists l'. split; [exact E1|].
  intros id. rewrite X1, X0. reflexivity.
Qed.

Lemma chain_app o1 o2 d w :
  match run_chain o1 d w with
  | (Err e, w1) => run_chain (o1 ++ o2) d w = (Err e, w1)
  | (Ok (d1, l1), w1) =>
      match run_chain o2 d1 w1 with
      | (Err e, w2) => run_chain (o1 ++ o2) d w = (Err e, w2)
      | (Ok (d2, l2), w2) => exists l, run_chain (o1 ++ o2) d w = (Ok (d2, l), w2) /\
          forall id, dget id l = merged_at df_concat (dget id l1) (dget id l2)
      end
  end.
Proof.
  unfold run_chain. rewrite !run_list_app. unfold bindM.
  destruct (run_list run_op o1 d [] w) as [[[d1 l1]|e] w1]; [|reflexivity].
  pose proof (run_list_logs run_op o2 d1 l1 w1) as H.
  destruct (run_list run_op o2 d1 [] w1) as [[[d2 l2]|e] w2]; exact H.
Qed.

(** ** What is logged *)
Lemma run_op_logs o d w d' l w' id : run_op o d w = (Ok (d', l), w') -> logs_to id o = false -> dget id l = None.
Proof.
  assert (Htr : forall m w d' l w', transformed m w = (Ok (d', l), w') -> l = []).
  { intros m w0 d0 l0 w0' H. apply bindM_ok in H. destruct H as (x & w1 & _ & H). now injection H as _ <-. }
  assert (Hse : forall d m w d' l w', side_effect d m w = (Ok (d', l), w') -> l = []).
  { intros d0 m w0 d1 l0 w0' H. apply bindM_ok in H. destruct H as (x & w1 & _ & H). now injection H as _ <-. }
  revert d w d' l w'. induction o as [o Hb|ops IH] using op_ind'; intros d w d' l w' H Hn.
  - destruct o; cbn [run_op] in H;
      try (apply Htr in H; subst; reflexivity); try (apply Hse in H; subst; reflexivity).
    + apply bindM_ok in H. destruct H as (x & w1 & _ & H). injection H as _ <- _. cbn in *.
      change (keqb id log_id) with (String.eqb id log_id). now rewrite Hn.
    + exfalso. eapply Hb. reflexivity.
  - cbn [run_op] in H. cbn [logs_to] in Hn.
    assert (G : forall ops d l0 w d' l w', Forall (fun o => forall d w d' l w', run_op o d w = (Ok (d', l), w') ->
                logs_to id o = false -> dget id l = None) ops -> existsb (logs_to id) ops = false ->
                run_list run_op ops d l0 w = (Ok (d', l), w') -> dget id l = dget id l0).
    { clear. induction ops as [|o ops IHo]; intros d l0 w d' l w' HF Hn H; cbn [run_list] in H.
      - now injection H as _ <- _.
      - inversion HF; subst. cbn in Hn. apply orb_false_iff in Hn. destruct Hn as [Hn1 Hn2].
        apply bindM_ok in H. destruct H as ([d1 s] & w1 & H0 & H).
        apply bindM_ok in H. destruct H as (m & w2 & Hm & H). apply lift_ok in Hm. destruct Hm as [Hm ->].
        destruct (merge_logs l0 s) as (m0 & M0 & D0). assert (m0 = m) by congruence. subst.
        rewrite (IHo _ _ _ _ _ _ H3 Hn2 H), D0, (H2 _ _ _ _ _ H0 Hn1). now destruct (dget id l0). }
    rewrite (G _ _ _ _ _ _ _ IH Hn H). reflexivity.
Qed.

Lemma run_list_logs_to ops d l0 w d' l w' id : run_list run_op ops d l0 w = (Ok (d', l), w') ->
  (forall o, In o ops -> logs_to id o = false) -> dget id l = dget id l0.
Proof.
  revert d l0 w. induction ops as [|o ops IHo]; intros d l0 w H Hn; cbn [run_list] in H.
  - now injection H as _ <- _.
  - apply bindM_ok in H. destruct H as ([d1 s] & w1 & H0 & H).
    apply bindM_ok in H. destruct H as (m & w2 & Hm & H). apply lift_ok in Hm. destruct Hm as [Hm ->].
    destruct (merge_logs l0 s) as (m0 & M0 & D0). assert (m0 = m) by congruence. subst.
    rewrite (IHo _ _ _ H), D0, (run_op_logs _ _ _ _ _ _ id H0); [now destruct (dget id l0)| |]; intros; apply Hn; cbn; auto.
Qed.

(** ** Side effects *)
Lemma side_effect_data o d w d' l w' : only_side_effect o = true -> run_op o d w = (Ok (d', l), w') ->
  d' = d /\ l = [].
Proof.
  assert (Hse : forall d m w d' l w', side_effect d m w = (Ok (d', l), w') -> d' = d /\ l = []).
  { intros d0 m w0 d1 l0 w0' H. apply bindM_ok in H. destruct H as (x & w1 & _ & H). now injection H as -> <-. }
  destruct o; cbn [only_side_effect]; try discriminate; intros _ H; cbn [run_op] in H; eapply Hse; eauto.
Qed.

Lemma logger_data id cols ex d w d' l w' : run_op (OpFieldLogger id cols ex) d w = (Ok (d', l), w') ->
  d' = d /\ w' = w /\ exists lg, emit_log cols ex d = Ok lg /\ l = [(id, lg)].
Proof.
  cbn [run_op]. intros H. apply bindM_ok in H. destruct H as (x & w1 & H0 & H).
  apply lift_ok in H0. destruct H0 as [H0 ->]. injection H as -> <- <-. eauto.
Qed.

(** ** Sublists *)
Lemma sublist_refl {A} (l : list A) : sublist l l.
Proof. induction l; [constructor|now apply sub_keep]. Qed.
Lemma sublist_nil_l {A} (l : list A) : sublist [] l.
Proof. induction l; constructor; auto. Qed.
Lemma sublist_trans {A} (a b c : list A) : sublist a b -> sublist b c -> sublist a c.
Proof.
  intros H1 H2. revert a H1. induction H2 as [|x b c H IH|x b c H IH]; intros a H1.
  - exact H1.
  - constructor. auto.
  - inversion H1; subst.
    + apply sub_skip. auto.
    + apply sub_keep. auto.
Qed.
Lemma sublist_In {A} (a b : list A) x : sublist a b -> In x a -> In x b.
Proof. induction 1; cbn; intuition. Qed.
Lemma sublist_NoDup {A} (a b : list A) : sublist a b -> NoDup b -> NoDup a.
Proof.
  induction 1 as [|x a b H IH|x a b H IH]; intros Hb; [exact Hb| |]; inversion Hb; subst; auto.
  constructor; [|auto]. intros Hx. eapply sublist_In in Hx; eauto.
Qed.
Lemma sublist_map {A B} (f : A -> B) a b : sublist a b -> sublist (map f a) (map f b).
Proof. induction 1; cbn; [constructor|now apply sub_skip|now apply sub_keep]. Qed.
Lemma sublist_filter {A} (f : A -> bool) l : sublist (filter f l) l.
Proof. induction l as [|x l IH]; cbn; [constructor|]. destruct (f x); [now apply sub_keep|now apply sub_skip]. Qed.
Lemma sublist_mask {A} mask (l : list A) : sublist (mask_rows mask l) l.
Proof.
  unfold mask_rows. revert mask. induction l as [|x l IH]; intros [|b mask]; cbn; try apply sublist_nil_l.
  destruct b; cbn; [apply sub_keep|apply sub_skip]; apply IH.
Qed.

(** ** Adding columns *)
Lemma Forall2_weaken {A B} (P Q : A -> B -> Prop) l m : (forall a b, P a b -> Q a b) ->
  Forall2 P l m -> Forall2 Q l m.
Proof. intros H. induction 1; constructor; auto. Qed.

Lemma suffixed_fresh others suffix c : ~ In c others -> suffixed others suffix c = c.
Proof. intros H. unfold suffixed. now rewrite (proj2 (mem_not_In c others) H). Qed.

Lemma map_suffixed_fresh others suffix l : (forall c, In c l -> ~ In c others) ->
  map (suffixed others suffix) l = l.
Proof.
  intros H. rewrite <- (map_id l) at 2. apply map_ext_in. intros c Hc. apply suffixed_fresh. auto.
Qed.

Definition is_left (how : join_kind) : bool := match how with JLeft => true | JInner => false end.

Lemma merge_index_ok how left right d' : merge_index how left right = Ok d' ->
  NoDup (df_index left) /\ NoDup (df_index right) /\
  df_cols d' = map (suffixed (df_cols right) "_x") (df_cols left) ++
               map (suffixed (df_cols left) "_y") (df_cols right) /\
  exists kept, sublist kept (df_rows left) /\ (is_left how = true -> kept = df_rows left) /\
    Forall2 (fun row row' => fst row' = fst row /\ exists extra, snd row' = snd row ++ extra /\
       (dget (fst row) (df_rows right) = Some extra \/
        dget (fst row) (df_rows right) = None /\ extra = repeat VNA (length (df_cols right))))
      kept (df_rows d').
Proof.
  unfold merge_index. destruct (nodupb (df_index left)) eqn:E1; [|discriminate].
  destruct (nodupb (df_index right)) eqn:E2; [|discriminate]. cbn [negb orb]. intros [= <-].
  split; [now apply nodupb_NoDup|]. split; [now apply nodupb_NoDup|]. cbn [df_cols df_rows]. split; [reflexivity|].
  clear E1. induction (df_rows left) as [|r rows IH]; cbn [flat_map].
  - exists []. split; [constructor|]. split; [reflexivity|constructor].
  - destruct IH as (kept & Hs & Hl & HF).
    destruct (dget (fst r) (df_rows right)) as [cells|] eqn:Eg.
    + exists (r :: kept). split; [now apply sub_keep|]. split; [intros H; f_equal; auto|].
      constructor; [|exact HF]. cbn. split; [reflexivity|]. exists cells. rewrite Eg. auto.
    + destruct how.
      * exists (r :: kept). split; [now apply sub_keep|]. split; [intros H; f_equal; auto|].
        constructor; [|exact HF]. cbn. split; [reflexivity|]. eexists. split; [reflexivity|]. rewrite Eg. auto.
      * exists kept. split; [now apply sub_skip|]. split; [discriminate|]. exact HF.
Qed.

Lemma merge_index_sub how left right d' : merge_index how left right = Ok d' ->
  sublist (df_index d') (df_index left) /\ (is_left how = true -> df_index d' = df_index left).
Proof.
  intros H. apply merge_index_ok in H. destruct H as (_ & _ & _ & kept & Hs & Hl & HF).
  assert (E : df_index d' = map fst kept).
  { unfold df_index. clear Hs Hl. induction HF as [|r r' k l [E _] HF IH]; cbn; congruence. }
  rewrite E. split; [now apply sublist_map|]. intros Hh. now rewrite Hl.
Qed.

Lemma dget_rows_len (d : df) i cells : (forall row, In row (df_rows d) -> length (snd row) = length (df_cols d)) ->
  dget i (df_rows d) = Some cells -> length cells = length (df_cols d).
Proof. intros H E. apply dget_In in E. exact (H _ E). Qed.

Lemma merge_extended how left right d' : merge_index how left right = Ok d' ->
  (forall c, In c (df_cols right) -> ~ In c (df_cols left)) ->
  (forall row, In row (df_rows right) -> length (snd row) = length (df_cols right)) ->
  extended (is_left how) left d' (df_cols right).
Proof.
  intros H Hf Hw. apply merge_index_ok in H. destruct H as (_ & _ & Hc & kept & Hs & Hl & HF).
  split.
  - rewrite Hc, !map_suffixed_fresh; [reflexivity| |]; intros c H1 H2; eapply Hf; eauto.
  - exists kept. split; [exact Hs|]. split; [exact Hl|].
    eapply Forall2_weaken; [|exact HF]. intros r r' [E (extra & Ee & Hx)]. split; [exact E|].
    exists extra. split; [exact Ee|]. destruct Hx as [Hx|[_ ->]].
    + eapply dget_rows_len; eauto.
    + apply repeat_length.
Qed.

Lemma column_cols d name vs out : column d name vs = Ok out ->
  df_cols out = [name] /\ (forall row, In row (df_rows out) -> length (snd row) = length (df_cols out)).
Proof.
  unfold column. destruct (length vs =? df_len d); [|discriminate]. intros [= <-]. cbn.
  split; [reflexivity|]. intros row Hr.
  destruct row as [i cells]. apply in_combine_r in Hr. apply in_map_iff in Hr.
  destruct Hr as (v & <- & _). reflexivity.
Qed.

Lemma added_ok how d m w d' l w' (out : df -> Prop) :
  (forall w r w', m w = (Ok r, w') -> exists o, out o /\ add_columns how d o = Ok r) ->
  transformed m w = (Ok (d', l), w') -> exists o, out o /\ merge_index how d o = Ok d'.
Proof.
  intros Hm H. apply bindM_ok in H. destruct H as (r & w1 & H1 & H). injection H as <- _ _.
  eapply Hm; eauto.
Qed.

Ltac mstep H :=
  let x := fresh "x" in let w := fresh "w" in let E := fresh "E" in
  apply bindM_ok in H; destruct H as (x & w & E & H).

Lemma rows_of_len index columns row : In row (rows_of index columns) -> length (snd row) = length columns.
Proof.
  unfold rows_of. intros H. apply in_map_iff in H. destruct H as ([k i] & <- & _). cbn. apply map_length.
Qed.

Lemma lookup_columns_len p cells select w cs w' : lookup_columns p cells select w = (Ok cs, w') ->
  length cs = length select.
Proof.
  revert w cs w'. induction select as [|[a n] select IH]; cbn [lookup_columns]; intros w cs w' H.
  - now injection H as <-.
  - mstep H. destruct (negb (nodupb (dkeys x))); [discriminate|]. mstep H. mstep H.
    injection H as <- _. cbn. f_equal. eauto.
Qed.

Lemma lookup_output_shape p f select d w out w' : lookup_output p f select d w = (Ok out, w') ->
  df_cols out = map snd select /\ NoDup (map snd select) /\
  (forall row, In row (df_rows out) -> length (snd row) = length (df_cols out)).
Proof.
  unfold lookup_output. destruct (nodupb (f :: map snd select)) eqn:En; [|discriminate]. cbn [negb].
  apply nodupb_NoDup in En. inversion En; subst. destruct (df_rows d) eqn:Er.
  - intros H. injection H as <- _. cbn. split; [reflexivity|]. split; [assumption|]. intros row [].
  - intros H. mstep H. mstep H. injection H as <- _. cbn. split; [reflexivity|]. split; [assumption|].
    intros row Hr. apply rows_of_len in Hr. rewrite Hr, map_length. eapply lookup_columns_len; eauto.
Qed.

(** the shape of what a column-adding operation merges *)
Lemma target_output o d w d' l w' new : target_columns o new -> run_op o d w = (Ok (d', l), w') ->
  exists out, df_cols out = new /\
    (forall row, In row (df_rows out) -> length (snd row) = length (df_cols out)) /\
    merge_index (if keeps_every_row o then JLeft else JInner) d out = Ok d'.
Proof.
  intros Ht H.
  assert (G : forall how m, transformed m w = (Ok (d', l), w') ->
     (forall w r w', m w = (Ok r, w') -> exists out, df_cols out = new /\
        (forall row, In row (df_rows out) -> length (snd row) = length (df_cols out)) /\
        add_columns how d out = Ok r) ->
     exists out, df_cols out = new /\
    (forall row, In row (df_rows out) -> length (snd row) = length (df_cols out)) /\ merge_index how d out = Ok d').
  { intros how m H0 Hm. apply bindM_ok in H0. destruct H0 as (r & w1 & H1 & H0). injection H0 as <- _ _.
    eapply Hm; eauto. }
  destruct o; cbn [target_columns] in Ht; try contradiction; cbn [run_op keeps_every_row] in *; subst new;
    eapply G in H; eauto; clear; intros w r w' H.
  - mstep H. mstep H. destruct x0 as [dates c']. mstep H. mstep H.
    apply lift_ok in H, E2. destruct H as [H ->], E2 as [E2 ->]. apply column_cols in E2 as [Ec Ew]. eauto.
  - mstep H. mstep H. mstep H. destruct x1 as [vs gens']. mstep H. mstep H.
    apply lift_ok in H, E3. destruct H as [H ->], E3 as [E3 ->]. apply column_cols in E3 as [Ec Ew]. eauto.
  - mstep H. mstep H. mstep H. mstep H. destruct x2 as [[vs dg'] gens']. mstep H. mstep H. mstep H. mstep H.
    apply lift_ok in H, E6. destruct H as [H ->], E6 as [E6 ->]. apply column_cols in E6 as [Ec Ew]. eauto.
  - mstep H. mstep H. mstep H.
    apply lift_ok in H, E1. destruct H as [H ->], E1 as [E1 ->]. apply column_cols in E1 as [Ec Ew]. eauto.
  - mstep H. destruct (reserved named_as); [discriminate|]. mstep H. apply lift_ok in H. destruct H as [H ->].
    eexists. split; [|split; [|exact H]]; [reflexivity|]. cbn. intros row Hr. apply in_map_iff in Hr.
    destruct Hr as ([[i f] t] & <- & _). reflexivity.
  - mstep H. mstep H. mstep H. destruct (reserved named_as); [discriminate|]. mstep H. apply lift_ok in H.
    destruct H as [H ->].
    eexists. split; [|split; [|exact H]]; [reflexivity|]. cbn. intros row Hr. apply in_map_iff in Hr.
    destruct Hr as ([i tos] & <- & _). reflexivity.
  - mstep H. apply lift_ok in H. destruct H as [H ->]. apply lookup_output_shape in E as (Ec & _ & Ew). eauto.
Qed.

Lemma target_extended o d w d' l w' new : target_columns o new -> run_op o d w = (Ok (d', l), w') ->
  (forall c, In c new -> ~ In c (df_cols d)) ->
  extended (keeps_every_row o) d d' new.
Proof.
  intros Ht H Hf. destruct (target_output _ _ _ _ _ _ _ Ht H) as (out & Hc & Hw & Hm).
  subst new. replace (keeps_every_row o) with (is_left (if keeps_every_row o then JLeft else JInner))
    by (destruct (keeps_every_row o); reflexivity).
  now apply merge_extended.
Qed.

Lemma mapr_exact {A B} (f : A -> result B) (g : A -> B) l l' : (forall x y, f x = Ok y -> y = g x) ->
  mapr f l = Ok l' -> l' = map g l.
Proof.
  intros H Hm. apply mapr_ok_Forall2 in Hm. induction Hm as [|x y l l' E _ IH]; cbn; [reflexivity|].
  rewrite <- IH. f_equal. now apply H.
Qed.

(** Apply: the user's function decides which columns exist *)
Lemma apply_extended src named f d w d' l w' : run_op (OpApply src named f) d w = (Ok (d', l), w') ->
  exists sel out, select_cols d src = Ok sel /\ f sel = Ok out /\
    ((forall c, In c (rename_first (df_cols out) named) -> ~ In c (df_cols d)) -> rectangular out ->
     extended true d d' (rename_first (df_cols out) named)).
Proof.
  cbn [run_op]. intros H. apply bindM_ok in H. destruct H as (r & w1 & H1 & H). injection H as <- _ _.
  mstep H1. apply lift_ok in H1, E. destruct H1 as [H1 ->], E as [E ->].
  unfold apply_output in E. apply bind_ok in E. destruct E as (sel & Es & E).
  apply bind_ok in E. destruct E as (out & Eo & E). exists sel, out. split; [exact Es|]. split; [exact Eo|].
  destruct (nodupb (df_cols out)); [|discriminate]. cbn in E. injection E as <-.
  intros Hf [_ Hw]. apply (merge_extended JLeft _ _ _ H1); cbn; [exact Hf|].
  intros row Hr. rewrite (Hw row Hr). clear. revert named.
  induction (df_cols out) as [|c cs IH]; intros [|n ns]; cbn; auto.
Qed.

(** ** The index of the story data *)
Lemma select_all_index r from named d d' : select_all r from named d = Ok d' ->
  NoDup (df_index d) /\ NoDup (df_index d') /\ incl (df_index d') (df_index d).
Proof.
  unfold select_all. destruct (reserved named); [discriminate|].
  destruct (nodupb (df_index d)) eqn:En; [|discriminate]. cbn [negb]. apply nodupb_NoDup in En.
  intros H. apply bind_ok in H. destruct H as (i & _ & H). injection H as <-.
  split; [exact En|]. unfold df_index in *. cbn [df_rows].
  set (key := fun row : val * list val => nth i (snd row) VNA).
  set (sel := select_all_horizontal r _). clearbody sel.
  set (froms := uniq (map key (df_rows d))).
  assert (Nf : NoDup froms) by apply uniq_NoDup. clearbody froms.
  set (F := fun f => match dget f sel with
            | Some tos => map (fun row : val * list val => (fst row, snd row ++ [VList tos])) (filter (fun row => keqb (key row) f) (df_rows d))
            | None => [] end).
  change (NoDup (map fst (flat_map F froms)) /\ incl (map fst (flat_map F froms)) (map fst (df_rows d))).
  assert (HF : forall f, sublist (map fst (F f)) (map fst (filter (fun row => keqb (key row) f) (df_rows d)))).
  { intros f. unfold F. destruct (dget f sel); [|apply sublist_nil_l]. rewrite map_map. cbn. apply sublist_refl. }
  assert (Hin : forall x f, In x (map fst (F f)) -> exists row, In row (df_rows d) /\ fst row = x /\ key row = f).
  { intros x f Hx. eapply sublist_In in Hx; [|apply HF]. apply in_map_iff in Hx. destruct Hx as (row & E & Hr).
    apply filter_In in Hr. destruct Hr as [Hr Hk]. apply keqb_eq in Hk. eauto. }
  assert (Huniq : forall r1 r2, In r1 (df_rows d) -> In r2 (df_rows d) -> fst r1 = fst r2 -> r1 = r2).
  { intros [i1 c1] [i2 c2] H1 H2 E. cbn in E. subst i2.
    pose proof (In_dget _ _ _ En H1) as D1. pose proof (In_dget _ _ _ En H2) as D2. congruence. }
  split.
  - induction froms as [|f froms IH]; cbn [flat_map]; [constructor|]. inversion Nf; subst. rewrite map_app.
    apply NoDup_app_intro.
    + eapply sublist_NoDup; [apply HF|]. now apply NoDup_map_filter.
    + now apply IH.
    + intros x Hx Hy. apply Hin in Hx. destruct Hx as (r1 & I1 & E1 & K1).
      apply in_map_iff in Hy. destruct Hy as (row & Er & Hy). apply in_flat_map in Hy. destruct Hy as (g & Hg & Hy).
      assert (Hy' : In x (map fst (F g))) by (rewrite <- Er; now apply in_map).
      apply Hin in Hy'. destruct Hy' as (r2 & I2 & E2 & K2).
      assert (r1 = r2) by (apply Huniq; congruence). subst r2. congruence.
  - intros x Hx. apply in_map_iff in Hx. destruct Hx as (row & Er & Hy). apply in_flat_map in Hy.
    destruct Hy as (g & Hg & Hy).
    assert (Hy' : In x (map fst (F g))) by (rewrite <- Er; now apply in_map).
    apply Hin in Hy'. destruct Hy' as (r2 & I2 & E2 & _). rewrite <- E2. now apply in_map.
Qed.

(** every operation but select_all: a sublist of the rows' labels *)
Lemma transformed_merge how d m w d' l w' : transformed m w = (Ok (d', l), w') ->
  (forall w r w', m w = (Ok r, w') -> exists out, merge_index how d out = Ok r) ->
  sublist (df_index d') (df_index d).
Proof.
  intros H Hm. apply bindM_ok in H. destruct H as (r & w1 & H1 & H). injection H as <- _ _.
  destruct (Hm _ _ _ H1) as (out & E). now apply merge_index_sub in E.
Qed.

Lemma run_op_index o d w d' l w' : run_op o d w = (Ok (d', l), w') -> NoDup (df_index d) ->
  NoDup (df_index d') /\ incl (df_index d') (df_index d) /\
  (selects_all o = false -> sublist (df_index d') (df_index d)).
Proof.
  revert d w d' l w'. induction o as [o Hb|ops IH] using op_ind'; intros d w d' l w' H Nd.
  - destruct (only_side_effect o) eqn:Es.
    { apply side_effect_data in H; [|exact Es]. destruct H as [-> _]. split; [exact Nd|].
      split; [apply incl_refl|]. intros _. apply sublist_refl. }
    assert (G : sublist (df_index d') (df_index d) -> NoDup (df_index d') /\ incl (df_index d') (df_index d) /\
       (selects_all o = false -> sublist (df_index d') (df_index d))).
    { intros S. split; [eapply sublist_NoDup; eauto|]. split; [|auto]. intros x Hx. eapply sublist_In; eauto. }
    destruct o; try discriminate Es.
    + apply G. apply logger_data in H. destruct H as [-> _]. apply sublist_refl.
    + apply G. cbn [run_op] in H. apply bindM_ok in H. destruct H as (r & w1 & H1 & H). injection H as <- _ _.
      apply lift_ok in H1. destruct H1 as [H1 _]. unfold drop_rows in H1. apply bind_ok in H1.
      destruct H1 as (bs & _ & H1). injection H1 as <-. unfold df_index. cbn. apply sublist_map, sublist_mask.
    + apply G. cbn [run_op] in H. eapply (transformed_merge JLeft); [exact H|].
      intros w1 r w2 H1. mstep H1. apply lift_ok in H1. destruct H1 as [H1 _]. eauto.
    + apply G. eapply target_output in H; [|reflexivity]. destruct H as (out & _ & _ & Hm).
      now apply merge_index_sub in Hm.
    + apply G. eapply target_output in H; [|reflexivity]. destruct H as (out & _ & _ & Hm).
      now apply merge_index_sub in Hm.
    + apply G. eapply target_output in H; [|reflexivity]. destruct H as (out & _ & _ & Hm).
      now apply merge_index_sub in Hm.
    + apply G. eapply target_output in H; [|reflexivity]. destruct H as (out & _ & _ & Hm).
      now apply merge_index_sub in Hm.
    + apply G. eapply target_output in H; [|reflexivity]. destruct H as (out & _ & _ & Hm).
      now apply merge_index_sub in Hm.
    + cbn [run_op] in H. apply bindM_ok in H. destruct H as (r0 & w1 & H1 & H). injection H as <- _ _.
      mstep H1. apply lift_ok in H1. destruct H1 as [H1 _]. apply select_all_index in H1.
      destruct H1 as (_ & N & I). split; [exact N|]. split; [exact I|]. discriminate.
    + apply G. eapply target_output in H; [|reflexivity]. destruct H as (out & _ & _ & Hm).
      now apply merge_index_sub in Hm.
    + apply G. eapply target_output in H; [|reflexivity]. destruct H as (out & _ & _ & Hm).
      now apply merge_index_sub in Hm.
    + exfalso. eapply Hb. reflexivity.
  - cbn [run_op] in H. cbn [selects_all].
    assert (G : forall ops d l0 w d' l w', Forall (fun o => forall d w d' l w', run_op o d w = (Ok (d', l), w') -> NoDup (df_index d) ->
       NoDup (df_index d') /\ incl (df_index d') (df_index d) /\
       (selects_all o = false -> sublist (df_index d') (df_index d))) ops ->
       run_list run_op ops d l0 w = (Ok (d', l), w') -> NoDup (df_index d) ->
       NoDup (df_index d') /\ incl (df_index d') (df_index d) /\
       (existsb selects_all ops = false -> sublist (df_index d') (df_index d))).
    { clear. induction ops as [|o ops IHo]; intros d l0 w d' l w' HF H Nd; cbn [run_list] in H.
      - injection H as <- _ _. split; [exact Nd|]. split; [apply incl_refl|]. intros _. apply sublist_refl.
      - inversion HF; subst. mstep H. destruct x as [d1 s]. mstep H.
        destruct (H2 _ _ _ _ _ E Nd) as (N1 & I1 & S1).
        destruct (IHo _ _ _ _ _ _ H3 H N1) as (N2 & I2 & S2).
        split; [exact N2|]. split; [eapply incl_tran; eauto|]. cbn. intros Hs. apply orb_false_iff in Hs.
        destruct Hs as [Hs1 Hs2]. eapply sublist_trans; eauto. }
    eapply G; eauto.
Qed.
