(** Proofs about the values operations put in the story data and the logs. *)
From Verif Require Import Base BaseFacts Rng RngFacts Utils UtilsFacts Relationship Frame Gens Clock Attribute World
  Story Ops OpsFacts SpecOps OpsProps.

Lemma find_col_cell c cols cells i : find_col c cols = Some i -> cell cols cells c = nth i cells VNA.
Proof.
  revert cells i. induction cols as [|c' cols IH]; cbn [find_col cell]; intros cells i H; [discriminate|].
  change (String.eqb c c') with (keqb c c'). destruct (keqb c c').
  - injection H as <-. destruct cells; reflexivity.
  - destruct (find_col c cols) as [j|]; [|discriminate]. injection H as <-. destruct cells as [|v cells]; [now destruct j|].
    cbn. now apply IH.
Qed.

Lemma col_pos_cell c cols cells i : col_pos c cols = Ok i -> cell cols cells c = nth i cells VNA.
Proof.
  unfold col_pos. destruct (find_col c cols) as [j|] eqn:E; [|discriminate].
  destruct (1 <? _); [discriminate|]. intros [= ->]. now apply find_col_cell.
Qed.

Lemma filter_nil_iff {A} (f : A -> bool) l : (forall x, In x l -> f x = false) -> filter f l = [].
Proof.
  induction l as [|x l IH]; cbn; intros H; [reflexivity|]. rewrite (H x (or_introl eq_refl)). auto.
Qed.

Lemma filter_keqb_len (c : string) cols : NoDup cols -> length (filter (keqb c) cols) <= 1.
Proof.
  induction cols as [|c' cols IH]; cbn; intros H; [lia|]. inversion H; subst.
  destruct (keqb_spec c c') as [->|N]; [|auto]. cbn.
  replace (filter (keqb c') cols) with (@nil string); [cbn; lia|].
  symmetry. apply filter_nil_iff. intros x Hx. destruct (keqb_spec c' x) as [->|]; tauto.
Qed.

Lemma col_pos_ok c cols : NoDup cols -> In c cols -> exists i, col_pos c cols = Ok i.
Proof.
  intros N H. unfold col_pos. destruct (find_col c cols) as [i|] eqn:E.
  - destruct (1 <? _) eqn:El; [|eauto]. apply Nat.ltb_lt in El. pose proof (filter_keqb_len c cols N). lia.
  - exfalso. revert H E. clear. induction cols as [|c' cols IH]; cbn; [tauto|]. intros [->|H].
    + destruct (keqb_spec c c); congruence.
    + destruct (keqb c c'); [discriminate|]. destruct (find_col c cols); [discriminate|]. auto.
Qed.

Lemma get_col_cells d c s : get_col d c = Ok s ->
  s = map (fun row => (fst row, cell (df_cols d) (snd row) c)) (df_rows d).
Proof.
  unfold get_col. intros H. apply bind_ok in H. destruct H as (i & E & H). injection H as <-.
  apply map_ext. intros row. f_equal. symmetry. now apply col_pos_cell.
Qed.

Lemma get_col_runs d c : rectangular d -> In c (df_cols d) ->
  get_col d c = Ok (map (fun row => (fst row, cell (df_cols d) (snd row) c)) (df_rows d)).
Proof.
  intros [N _] H. destruct (col_pos_ok c _ N H) as (i & E). unfold get_col. rewrite E. cbn. f_equal.
  apply map_ext. intros row. f_equal. symmetry. now apply col_pos_cell.
Qed.

(** ** DropRow *)
Lemma mask_filter {A} (f : A -> bool) l : mask_rows (map f l) l = filter f l.
Proof.
  unfold mask_rows. induction l as [|x l IH]; cbn; [reflexivity|]. destruct (f x); cbn; now rewrite IH.
Qed.

Lemma bool_col_ok d c bs : bool_col d c = Ok bs ->
  bs = map (fun row => val_eqb (cell (df_cols d) (snd row) c) (VBool true)) (df_rows d) /\
  forall row, In row (df_rows d) -> exists b, cell (df_cols d) (snd row) c = VBool b.
Proof.
  unfold bool_col. intros H. apply bind_ok in H. destruct H as (s & E & H). apply get_col_cells in E. subst s.
  revert bs H. induction (df_rows d) as [|row rows IH]; cbn [map mapr]; intros bs H.
  - injection H as <-. split; [reflexivity|]. intros row [].
  - apply bind_ok in H. destruct H as (b & Eb & H). apply bind_ok in H. destruct H as (bs' & E & H).
    injection H as <-. destruct (IH _ E) as [-> Hb]. cbn in Eb.
    destruct (cell (df_cols d) (snd row) c) eqn:Ec; try discriminate. injection Eb as <-. split.
    + cbn [map]. f_equal. now destruct b0.
    + intros r [<-|Hr]; eauto.
Qed.

Lemma bool_col_runs d c : rectangular d -> In c (df_cols d) ->
  (forall row, In row (df_rows d) -> exists b, cell (df_cols d) (snd row) c = VBool b) ->
  bool_col d c = Ok (map (fun row => val_eqb (cell (df_cols d) (snd row) c) (VBool true)) (df_rows d)).
Proof.
  intros R H Hb. unfold bool_col. rewrite get_col_runs by assumption. cbn [bind].
  clear R H. induction (df_rows d) as [|row rows IH]; cbn [map mapr]; [reflexivity|].
  destruct (Hb row (or_introl eq_refl)) as (b & Ec). cbn [snd]. rewrite Ec. cbn [bool_of bind].
  rewrite IH by (intros; apply Hb; now right). cbn. now destruct b.
Qed.

Lemma drop_rows_ok d c d' : drop_rows d c = Ok d' ->
  df_cols d' = df_cols d /\
  df_rows d' = filter (fun row => val_eqb (cell (df_cols d) (snd row) c) (VBool false)) (df_rows d).
Proof.
  unfold drop_rows. intros H. apply bind_ok in H. destruct H as (bs & E & H). injection H as <-.
  apply bool_col_ok in E. destruct E as [-> Hb]. cbn. split; [reflexivity|].
  rewrite map_map, mask_filter. apply filter_ext_in. intros row Hr. destruct (Hb row Hr) as (b & ->). now destruct b.
Qed.

Lemma drop_rows_runs d c : rectangular d -> In c (df_cols d) ->
  (forall row, In row (df_rows d) -> exists b, cell (df_cols d) (snd row) c = VBool b) ->
  exists d', drop_rows d c = Ok d'.
Proof. intros R H Hb. unfold drop_rows. rewrite bool_col_runs by assumption. cbn. eauto. Qed.

(** ** Exact columns *)
Lemma dget_combine_index (rows : list (val * list val)) (vs : list val) i : NoDup (map fst rows) ->
  length vs = length rows ->
  forall row v, In (row, v) (combine rows vs) -> fst row = i ->
  dget i (combine (map fst rows) (map (fun v => [v]) vs)) = Some [v].
Proof.
  revert vs. induction rows as [|r rows IH]; intros [|v0 vs] N L row v H E; cbn in *; try discriminate; [tauto|].
  inversion N as [|? ? Hn Nn]; subst. destruct H as [H|H].
  - injection H as <- <-. destruct (keqb_spec (fst r) (fst r)); congruence.
  - destruct (keqb_spec (fst row) (fst r)) as [Er|_].
    + exfalso. apply Hn. rewrite <- Er. apply in_combine_l in H. now apply in_map.
    + eapply IH; eauto.
Qed.

Lemma column_adds d name vs out d' : column d name vs = Ok out -> merge_index JLeft d out = Ok d' ->
  ~ In name (df_cols d) -> adds_column d d' name vs.
Proof.
  unfold column. destruct (Nat.eqb_spec (length vs) (df_len d)) as [L|]; [|discriminate]. intros [= <-] H Hf.
  assert (Nd : NoDup (df_index d)) by (apply merge_index_ok in H; tauto).
  assert (Hc : df_cols d' = df_cols d ++ [name]).
  { apply merge_index_ok in H. destruct H as (_ & _ & -> & _). cbn [df_cols].
    rewrite !map_suffixed_fresh; [reflexivity| |]; intros c Hc Hd; cbn in Hc, Hd; destruct Hd as [<-|[]] || destruct Hc as [<-|[]]; tauto. }
  split; [exact Hc|]. split; [exact L|].
  unfold merge_index in H. destruct (negb _ || negb _); [discriminate|]. injection H as <-. cbn [df_rows].
  unfold df_index, df_len in *. rewrite flat_map_concat_map.
  assert (G : forall rows vs', (forall row v, In (row, v) (combine rows vs') -> In (row, v) (combine (df_rows d) vs)) ->
     length vs' = length rows ->
     concat (map (fun l => match dget (fst l) (combine (map fst (df_rows d)) (map (fun v => [v]) vs)) with
        | Some cells => [(fst l, snd l ++ cells)] | None => [(fst l, snd l ++ repeat VNA (length (df_cols (mkDf [name] (combine (map fst (df_rows d)) (map (fun v => [v]) vs))))))] end) rows) =
     map (fun rv => (fst (fst rv), snd (fst rv) ++ [snd rv])) (combine rows vs')).
  { induction rows as [|r rows IH]; intros [|v vs'] Hi L'; try discriminate; [reflexivity|].
    cbn [map concat combine].
    rewrite (dget_combine_index (df_rows d) vs (fst r) Nd L r v (Hi _ _ (or_introl eq_refl)) eq_refl).
    cbn. f_equal. apply IH; [|now injection L']. intros; apply Hi; now right. }
  apply (G (df_rows d) vs); auto.
Qed.

(** ** FieldLogger *)
Lemma select_cols_cells d cs d' : select_cols d cs = Ok d' ->
  df_cols d' = cs /\ df_rows d' = map (fun row => (fst row, map (cell (df_cols d) (snd row)) cs)) (df_rows d).
Proof.
  unfold select_cols. intros H. apply bind_ok in H. destruct H as (is & E & H). injection H as <-. cbn.
  split; [reflexivity|]. apply map_ext. intros row. f_equal. apply mapr_ok_Forall2 in E.
  induction E as [|c i cs is Ec _ IH]; cbn; [reflexivity|]. rewrite IH. f_equal. symmetry. now apply col_pos_cell.
Qed.

Lemma select_cols_runs d cs : NoDup (df_cols d) -> incl cs (df_cols d) ->
  select_cols d cs = Ok (mkDf cs (map (fun row => (fst row, map (cell (df_cols d) (snd row)) cs)) (df_rows d))).
Proof.
  intros N Hi. assert (exists is, mapr (fun c => col_pos c (df_cols d)) cs = Ok is) as (is & E).
  { induction cs as [|c cs IH]; cbn; [eauto|]. destruct (col_pos_ok c _ N (Hi c (or_introl eq_refl))) as (i & ->).
    destruct IH as (is & ->); [intros x Hx; apply Hi; now right|]. cbn. eauto. }
  assert (select_cols d cs = Ok (mkDf cs (map (fun r => (fst r, map (fun i => nth i (snd r) VNA) is)) (df_rows d))))
    by (unfold select_cols; rewrite E; reflexivity).
  pose proof (select_cols_cells _ _ _ H) as [_ Hr]. cbn [df_rows] in Hr. rewrite <- Hr. exact H.
Qed.

Lemma emit_plain cols d : NoDup (df_cols d) -> incl cols (df_cols d) -> cols <> [] ->
  emit_log cols [] d = Ok (mkDf cols (map (fun row => (fst row, map (cell (df_cols d) (snd row)) cols)) (df_rows d))).
Proof.
  intros N Hi Hn. unfold emit_log. cbn [bind]. destruct cols as [|c cols]; [tauto|]. now apply select_cols_runs.
Qed.

Lemma emit_all d : emit_log [] [] d = Ok d.
Proof. reflexivity. Qed.

Lemma cell_app_l c cols cells cols2 cells2 : In c cols -> length cells = length cols ->
  cell (cols ++ cols2) (cells ++ cells2) c = cell cols cells c.
Proof.
  revert cells. induction cols as [|c' cols IH]; intros [|v cells] H L; try discriminate; [destruct H|].
  cbn. change (String.eqb c c') with (keqb c c'). destruct (keqb_spec c c'); [reflexivity|].
  apply IH; [|now injection L]. destruct H; congruence.
Qed.

Lemma cell_app_r c cols cells cols2 cells2 : ~ In c cols -> length cells = length cols ->
  cell (cols ++ cols2) (cells ++ cells2) c = cell cols2 cells2 c.
Proof.
  revert cells. induction cols as [|c' cols IH]; intros [|v cells] H L; try discriminate; [reflexivity|].
  cbn. change (String.eqb c c') with (keqb c c'). destruct (keqb_spec c c') as [->|]; [exfalso; apply H; now left|].
  apply IH; [|now injection L]. intros Hc. apply H. now right.
Qed.

Lemma cell_map_self (f : string -> val) cols c : In c cols -> cell cols (map f cols) c = f c.
Proof.
  induction cols as [|c' cols IH]; cbn; [tauto|]. intros H. change (String.eqb c c') with (keqb c c').
  destruct (keqb_spec c c') as [->|N]; [reflexivity|]. apply IH. destruct H; congruence.
Qed.

Lemma project_cells cols cells target : (forall c, In c target -> In c cols) ->
  project cols cells target = map (cell cols cells) target.
Proof.
  intros H. unfold project. apply map_ext_in. intros c Hc. destruct (find_col c cols) as [i|] eqn:E.
  - symmetry. now apply find_col_cell.
  - exfalso. specialize (H c Hc). revert H E. clear. induction cols as [|c' cols IH]; cbn; [tauto|].
    intros [->|H].
    + destruct (keqb_spec c c); congruence.
    + destruct (keqb c c'); [discriminate|]. destruct (find_col c cols); [discriminate|]. auto.
Qed.

(** the number of log lines a row of the story data gives *)

Definition log_base (cols exploded : list string) (row : val * list val) (k : nat) : list val :=
  map (cell cols (snd row)) (filter (fun c => negb (mem c exploded)) cols) ++
  map (fun c => nth k (list_of (cell cols (snd row) c)) VNA) exploded.

Lemma explo_runs cols exploded row : NoDup cols -> incl exploded cols -> exploded <> [] ->
  (forall c, In c exploded -> exists l, cell cols (snd row) c = VList l /\ length l = log_lines cols exploded row) ->
  explo cols exploded row = Ok (map (fun k => (fst row, log_base cols exploded row k)) (seq 0 (log_lines cols exploded row))).
Proof.
  intros N Hi Hn Hl. unfold explo.
  assert (E : mapr (fun c => let! i := col_pos c cols in as_list (nth i (snd row) VNA)) exploded =
              Ok (map (fun c => list_of (cell cols (snd row) c)) exploded)).
  { assert (G : forall es, incl es exploded -> mapr (fun c => let! i := col_pos c cols in as_list (nth i (snd row) VNA)) es =
              Ok (map (fun c => list_of (cell cols (snd row) c)) es)).
    { induction es as [|c es IH]; cbn [mapr map]; intros He; [reflexivity|].
      assert (Hc : In c exploded) by (apply He; now left).
      destruct (col_pos_ok c _ N (Hi _ Hc)) as (i & Ei). rewrite Ei. cbn [bind].
      destruct (Hl c Hc) as (l & Ec & _). rewrite <- (col_pos_cell _ _ (snd row) _ Ei), Ec. cbn [as_list bind list_of].
      rewrite IH by (intros x Hx; apply He; now right). reflexivity. }
    apply G, incl_refl. }
  rewrite E. cbn [bind].
  assert (Eh : length (hd [] (map (fun c => list_of (cell cols (snd row) c)) exploded)) = log_lines cols exploded row).
  { destruct exploded; [tauto|reflexivity]. }
  rewrite Eh.
  assert (Es : same_length (log_lines cols exploded row) (map (fun c => list_of (cell cols (snd row) c)) exploded) = true).
  { apply forallb_forall. intros l H. apply in_map_iff in H. destruct H as (c & <- & Hc).
    destruct (Hl c Hc) as (l & -> & El). cbn. now apply Nat.eqb_eq. }
  rewrite Es. f_equal. apply map_ext. intros k. f_equal. unfold log_base. f_equal.
  - apply project_cells. intros c H. apply filter_In in H. tauto.
  - now rewrite map_map.
Qed.


Lemma explode_runs d exploded : NoDup (df_cols d) -> NoDup exploded -> incl exploded (df_cols d) -> exploded <> [] ->
  same_lists d exploded ->
  (exists row, In row (df_rows d) /\ log_lines (df_cols d) exploded row <> 0) ->
  explode d exploded = Ok (mkDf (filter (fun c => negb (mem c exploded)) (df_cols d) ++ exploded)
    (flat_map (fun row => map (fun k => (fst row, log_base (df_cols d) exploded row k))
       (seq 0 (log_lines (df_cols d) exploded row))) (df_rows d))).
Proof.
  intros N Ne Hi Hn Hs (row & Hr & Hp). unfold explode.
  rewrite (proj2 (nodupb_NoDup _) N), (proj2 (nodupb_NoDup _) Ne). cbn [negb orb].
  assert (Hr' := Hr). destruct (df_rows d) as [|r0 rows0] eqn:Er; [destruct Hr|].
  rewrite <- Er in *. assert (E : mapr (explo (df_cols d) exploded) (df_rows d) =
     Ok (map (fun row => map (fun k => (fst row, log_base (df_cols d) exploded row k))
       (seq 0 (log_lines (df_cols d) exploded row))) (df_rows d))).
  { assert (G : forall rows, incl rows (df_rows d) -> mapr (explo (df_cols d) exploded) rows =
     Ok (map (fun row => map (fun k => (fst row, log_base (df_cols d) exploded row k))
       (seq 0 (log_lines (df_cols d) exploded row))) rows)).
    { induction rows as [|r rows IH]; cbn [mapr map]; intros H; [reflexivity|].
      rewrite explo_runs; auto; [|intros c Hc; apply Hs; auto; apply H; now left].
      cbn [bind]. rewrite IH by (intros x Hx; apply H; now right). reflexivity. }
    apply G, incl_refl. }
  rewrite E. cbn [bind]. rewrite <- flat_map_concat_map.
  destruct (flat_map _ (df_rows d)) as [|x l] eqn:Ef; [|reflexivity].
  exfalso. destruct (log_lines (df_cols d) exploded row) as [|n] eqn:El; [congruence|].
  assert (H : In (fst row, log_base (df_cols d) exploded row 0) []).
  { rewrite <- Ef. apply in_flat_map. exists row. split; [exact Hr|]. apply in_map_iff. exists 0.
    split; [reflexivity|]. apply in_seq. lia. }
  destruct H.
Qed.

Lemma NoDup_app_parts {A} (l1 l2 : list A) : NoDup l1 -> NoDup l2 -> (forall x, In x l1 -> ~ In x l2) -> NoDup (l1 ++ l2).
Proof.
  induction l1 as [|x l1 IH]; cbn; intros H1 H2 D; [exact H2|]. inversion H1; subst. constructor.
  - intros H. apply in_app_iff in H. destruct H; [tauto|]. eapply D; eauto.
  - apply IH; auto.
Qed.

Lemma log_base_cell cols exploded row k c : NoDup cols -> incl exploded cols -> In c cols ->
  cell (filter (fun c => negb (mem c exploded)) cols ++ exploded) (log_base cols exploded row k) c =
  shown cols exploded row k c.
Proof.
  intros N Hi Hc. unfold log_base, shown. destruct (mem c exploded) eqn:Em.
  - rewrite cell_app_r; [|intros H; apply filter_In in H; rewrite Em in H; destruct H; discriminate|now rewrite map_length].
    apply mem_In in Em. now rewrite (cell_map_self (fun c => nth k (list_of (cell cols (snd row) c)) VNA)).
  - rewrite cell_app_l; [|apply filter_In; now rewrite Em|now rewrite map_length].
    rewrite cell_map_self; [reflexivity|]. apply filter_In. now rewrite Em.
Qed.

Lemma emit_exploded cols exploded d : rectangular d -> NoDup exploded -> incl cols (df_cols d) ->
  incl exploded (df_cols d) -> exploded <> [] -> same_lists d exploded ->
  (exists row, In row (df_rows d) /\ log_lines (df_cols d) exploded row <> 0) ->
  emit_log (cols ++ exploded) exploded d = Ok (mkDf (cols ++ exploded)
    (flat_map (fun row => map (fun k => (fst row, map (shown (df_cols d) exploded row k) (cols ++ exploded)))
       (seq 0 (log_lines (df_cols d) exploded row))) (df_rows d))).
Proof.
  intros [N _] Ne Hc Hi Hn Hs Hp. unfold emit_log.
  assert (E : match exploded with [] => Ok d | _ => explode d exploded end = explode d exploded)
    by (destruct exploded; [tauto|reflexivity]).
  rewrite E, explode_runs by assumption. cbn [bind].
  destruct (cols ++ exploded) as [|c0 cs0] eqn:Ec; [destruct cols; [cbn in Ec; congruence|discriminate]|].
  rewrite <- Ec. rewrite select_cols_runs; cbn [df_cols df_rows].
  - f_equal. f_equal. rewrite !flat_map_concat_map, concat_map, map_map. f_equal. apply map_ext. intros row.
    rewrite map_map. apply map_ext. intros k. cbn [fst snd]. f_equal. apply map_ext_in. intros c H.
    apply log_base_cell; auto. apply in_app_iff in H. destruct H; auto.
  - apply NoDup_app_parts; [now apply NoDup_filter|exact Ne|]. intros x H1 H2. apply filter_In in H1.
    destruct H1 as [_ H1]. apply mem_In in H2. now rewrite H2 in H1.
  - intros c H. apply in_app_iff. destruct (mem c exploded) eqn:Em; [right; now apply mem_In|left].
    apply filter_In. rewrite Em. split; [|reflexivity]. apply in_app_iff in H. destruct H; auto.
Qed.

Lemma emit_empty_refused cols e exploded d : NoDup (df_cols d) -> NoDup (e :: exploded) -> df_rows d = [] ->
  emit_log cols (e :: exploded) d = Err ValueError.
Proof.
  intros N Ne E. unfold emit_log, explode.
  rewrite (proj2 (nodupb_NoDup _) N), (proj2 (nodupb_NoDup _) Ne), E. reflexivity.
Qed.

(** ** Lookup *)
Lemma Forall2_positions {A B} (R : A -> B -> Prop) l m : length l = length m ->
  (forall k a b, nth_error l k = Some a -> nth_error m k = Some b -> R a b) -> Forall2 R l m.
Proof.
  revert m. induction l as [|a l IH]; intros [|b m] L H; try discriminate; constructor.
  - now apply (H 0).
  - apply IH; [now injection L|]. intros k. apply (H (S k)).
Qed.

Lemma Forall2_at {A B} (R : A -> B -> Prop) l m k a b : Forall2 R l m ->
  nth_error l k = Some a -> nth_error m k = Some b -> R a b.
Proof.
  intros H. revert k. induction H as [|x y l m Hr _ IH]; intros [|k]; cbn; try discriminate; [congruence|apply IH].
Qed.

Lemma cells_for_ok t ids vs : cells_for t ids = Ok vs -> Forall2 (fun i x => dget i t = Some x) ids vs.
Proof.
  revert vs. induction ids as [|i ids IH]; cbn; intros vs H; [injection H as <-; constructor|].
  destruct (dget i t) eqn:E; [|discriminate]. apply bind_ok in H. destruct H as (vs' & E' & H). injection H as <-.
  constructor; auto.
Qed.

Lemma lookup_column_ok t cells c : lookup_column t cells = Ok c -> Forall2 (looked_up t) cells c.
Proof.
  intros H.
  assert (G : existsb (fun c => match c with VList _ => true | _ => false end) cells = false ->
              cells_for t cells = Ok c -> Forall2 (looked_up t) cells c).
  { intros He Hc. apply cells_for_ok in Hc. clear H. induction Hc as [|i x ids vs E _ IH]; [constructor|].
    cbn in He. apply orb_false_iff in He. destruct He as [He1 He2]. constructor; [|auto].
    destruct i; try exact E. discriminate. }
  assert (L : forall cells c, (let! lists := mapr as_list cells in
      mapr (fun ids => let! vs := cells_for t ids in Ok (VList vs)) lists) = Ok c -> Forall2 (looked_up t) cells c).
  { clear. intros cells c H. apply bind_ok in H. destruct H as (ls & E & H).
    apply mapr_ok_Forall2 in E. apply mapr_ok_Forall2 in H. revert c H.
    induction E as [|v l cells ls Ev _ IH]; intros c H; inversion H; subst; constructor; auto.
    destruct v; try discriminate. injection Ev as ->. cbn. apply bind_ok in H2. destruct H2 as (vs & E & H2).
    injection H2 as <-. exists vs. split; [reflexivity|]. now apply cells_for_ok. }
  unfold lookup_column in H. destruct cells as [|v0 cells]; [apply G; auto|].
  destruct v0; try (destruct (existsb _ _) eqn:He in H; [discriminate|]; now apply G). now apply L.
Qed.

Lemma get_attribute_values_all p name w t w' : get_attribute_values p name None w = (Ok t, w') ->
  attribute_table w p name t /\ w' = w.
Proof.
  unfold get_attribute_values, get_attribute. intros H. mstep H. mstep E. mstep H.
  apply deref_ok in E0. destruct E0 as [E0 ->]. apply lift_ok in E. destruct E as [E ->].
  apply deref_ok in E1. destruct E1 as [E1 ->]. apply lift_ok in H. destruct H as [H ->].
  injection H as <-. destruct (dget name (p_attrs x0)) eqn:Ea; [|discriminate]. injection E as <-.
  split; [|reflexivity]. exists x0, n. auto.
Qed.

Lemma lookup_columns_ok p cells select w cs w' : lookup_columns p cells select w = (Ok cs, w') ->
  w' = w /\ Forall2 (fun an c => exists t, attribute_table w p (fst an) t /\ Forall2 (looked_up t) cells c) select cs.
Proof.
  revert w cs w'. induction select as [|[a n] select IH]; cbn [lookup_columns]; intros w cs w' H.
  - injection H as <- <-. split; [reflexivity|constructor].
  - mstep H. apply get_attribute_values_all in E. destruct E as [Ha ->].
    destruct (negb (nodupb (dkeys x))); [discriminate|]. mstep H. mstep H.
    apply lift_ok in E. destruct E as [E ->]. destruct (IH _ _ _ E0) as [-> HF].
    injection H as <- <-. split; [reflexivity|]. constructor; [|exact HF]. cbn. exists x. split; [exact Ha|].
    now apply lookup_column_ok.
Qed.

Lemma combine_seq_nth {A} (l : list A) n k x : nth_error l k = Some x ->
  nth_error (combine (seq n (length l)) l) k = Some (n + k, x).
Proof.
  revert n k. induction l as [|y l IH]; intros n [|k]; cbn; try discriminate.
  - intros [= ->]. now rewrite Nat.add_0_r.
  - intros H. rewrite (IH (S n) k H). f_equal. f_equal. lia.
Qed.

Lemma rows_of_dget index cs k i : NoDup index -> nth_error index k = Some i ->
  dget i (rows_of index cs) = Some (map (fun c => nth k c VNA) cs).
Proof.
  intros N H. apply In_dget.
  - unfold dkeys, rows_of. rewrite map_map.
    replace (map _ (combine (seq 0 (length index)) index)) with index; [exact N|].
    rewrite <- (map_snd_combine (seq 0 (length index)) index) at 1 by (now rewrite seq_length).
    apply map_ext. now intros [j x].
  - unfold rows_of. apply in_map_iff. exists (k, i). split; [reflexivity|].
    apply combine_seq_nth with (n := 0) in H. now apply nth_error_In in H.
Qed.

Lemma Forall2_len_all {A B} (P : A -> list B -> Prop) l (m : list (list B)) n :
  (forall a b, P a b -> length b = n) -> Forall2 P l m -> forall c, In c m -> length c = n.
Proof. intros H HF. induction HF; intros c []; subst; eauto. Qed.

Lemma lookup_rows p f select d w d' l w' : run_op (OpLookup p f select) d w = (Ok (d', l), w') ->
  w' = w /\
  ((forall c, In c (map snd select) -> ~ In c (df_cols d)) -> df_cols d' = df_cols d ++ map snd select) /\
  Forall2 (fun row row' => fst row' = fst row /\ exists vs, snd row' = snd row ++ vs /\
     Forall2 (fun an v => exists t, attribute_table w p (fst an) t /\
                                    looked_up t (cell (df_cols d) (snd row) f) v) select vs)
    (df_rows d) (df_rows d').
Proof.
  cbn [run_op]. intros H. apply bindM_ok in H. destruct H as (r & w1 & H1 & H). injection H as <- _ <-.
  mstep H1. apply lift_ok in H1. destruct H1 as [H1 ->]. unfold add_columns in H1.
  pose proof (lookup_output_shape _ _ _ _ _ _ _ E) as (Hc & _ & Hw).
  assert (Hcols : (forall c, In c (map snd select) -> ~ In c (df_cols d)) -> df_cols r = df_cols d ++ map snd select).
  { intros Hf. rewrite <- Hc. apply (merge_extended JLeft _ _ _ H1); [now rewrite Hc|exact Hw]. }
  unfold lookup_output in E. destruct (nodupb (f :: map snd select)); [|discriminate]. cbn [negb] in E.
  apply merge_index_ok in H1. destruct H1 as (N1 & N2 & _ & kept & _ & Hk & HF). specialize (Hk eq_refl). subst kept.
  destruct (df_rows d) as [|r0 rows0] eqn:Er.
  { injection E as <- <-. split; [reflexivity|]. split; [exact Hcols|]. inversion HF. constructor. }
  rewrite <- Er in *. mstep E. mstep E. injection E as <- <-. apply lift_ok in E0. destruct E0 as [E0 ->].
  apply get_col_cells in E0. subst x0. destruct (lookup_columns_ok _ _ _ _ _ _ E1) as [-> HC].
  split; [reflexivity|]. split; [exact Hcols|]. rewrite map_map in HC. cbn [snd] in HC.
  apply Forall2_positions; [eapply Forall2_length; exact HF|].
  intros k row row' Hk Hk'. destruct (Forall2_at _ _ _ _ _ _ HF Hk Hk') as (Ef & extra & Ex & Hx).
  split; [exact Ef|]. exists extra. split; [exact Ex|]. cbn [df_rows] in Hx.
  assert (Hi : nth_error (df_index d) k = Some (fst row)) by (unfold df_index; rewrite nth_error_map, Hk; reflexivity).
  rewrite (rows_of_dget _ _ _ _ N1 Hi) in Hx. destruct Hx as [Hx|[Hx _]]; [|discriminate]. injection Hx as <-.
  clear - HC Hk. induction HC as [|an c select cs (t & Ht & HL) _ IH]; cbn; constructor; [|exact IH].
  exists t. split; [exact Ht|].
  assert (Hc : nth_error (map (fun row => cell (df_cols d) (snd row) f) (df_rows d)) k = Some (cell (df_cols d) (snd row) f))
    by now rewrite nth_error_map, Hk.
  assert (exists v, nth_error c k = Some v) as (v & Ev).
  { destruct (nth_error c k) eqn:E; [eauto|]. apply nth_error_None in E. apply Forall2_length in HL.
    assert (k < length (map (fun row => cell (df_cols d) (snd row) f) (df_rows d))) by (apply nth_error_Some; congruence). lia. }
  rewrite (nth_error_nth _ _ _ Ev). eapply Forall2_at; eauto.
Qed.

(** ** What generators and the clock put in a column *)
Lemma generate_adds g n d w d' l w' : run_op (OpGenerate g n None) d w = (Ok (d', l), w') -> ~ In n (df_cols d) ->
  exists vs gens', random_values (w_gens w) g (length (df_rows d)) None = Ok (vs, gens') /\
    adds_column d d' n vs /\ w' = set_gens gens' w.
Proof.
  cbn [run_op]. intros H Hf. apply bindM_ok in H. destruct H as (r & w1 & H1 & H). injection H as <- _ <-.
  mstep H1. apply lift_ok in E. destruct E as [[= <-] ->]. mstep H1. injection E as <- <-.
  mstep H1. destruct x as [vs gens']. apply lift_ok in E. destruct E as [E ->]. mstep H1. injection E0 as <- <-.
  mstep H1. apply lift_ok in E0. destruct E0 as [E0 ->]. apply lift_ok in H1. destruct H1 as [H1 ->].
  exists vs, gens'. split; [exact E|]. split; [|reflexivity]. eapply column_adds; eauto.
Qed.

Lemma timestamp_adds n random fmt d w d' l w' : run_op (OpTimestamp n random fmt) d w = (Ok (d', l), w') ->
  ~ In n (df_cols d) ->
  exists dates c', get_timestamp (w_clock w) (length (df_rows d)) random = Ok (dates, c') /\
    adds_column d d' n (map fmt dates) /\ w' = set_clock c' w.
Proof.
  cbn [run_op]. intros H Hf. apply bindM_ok in H. destruct H as (r & w1 & H1 & H). injection H as <- _ <-.
  mstep H1. injection E as <- <-. mstep H1. destruct x as [dates c']. apply lift_ok in E. destruct E as [E ->].
  mstep H1. injection E0 as <- <-. mstep H1. apply lift_ok in E0. destruct E0 as [E0 ->]. apply lift_ok in H1.
  destruct H1 as [H1 ->]. exists dates, c'. split; [exact E|]. split; [|reflexivity]. eapply column_adds; eauto.
Qed.

Lemma neighbours_adds r f n d w d' l w' : run_op (OpNeighbours r f n) d w = (Ok (d', l), w') ->
  ~ In n (df_cols d) ->
  exists rel, nth_error (w_rels w) r = Some rel /\ w' = w /\
    adds_column d d' n (map (fun row => vnat (neighbourhood_size rel (cell (df_cols d) (snd row) f))) (df_rows d)).
Proof.
  cbn [run_op]. intros H Hf. apply bindM_ok in H. destruct H as (r0 & w1 & H1 & H). injection H as <- _ <-.
  mstep H1. apply lift_ok in E. destruct E as [E ->]. apply get_col_cells in E. subst x.
  mstep H1. apply deref_ok in E. destruct E as [E ->]. mstep H1. apply lift_ok in E0. destruct E0 as [E0 ->].
  apply lift_ok in H1. destruct H1 as [H1 ->]. exists x. split; [exact E|]. split; [reflexivity|].
  rewrite map_map in E0. cbn [snd] in E0. eapply column_adds; eauto.
Qed.
