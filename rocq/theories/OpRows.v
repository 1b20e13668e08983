(** Stories with one operation of interest before the logger: the frames it works on and the rows logged. *)
From Verif Require CircusFacts.
From Verif Require Import Base BaseFacts Rng Utils UtilsFacts Relationship RelationshipFacts SpecRelationship RelationshipProps Frame Gens Clock SpecClock ClockProps
  Attribute SpecAttribute AttributeFacts World Story Ops OpsFacts Fs Helpers HelpersFacts Circus SpecStory StoryFacts StoryExec StoryProps SpecOps OpsProps OpsColumns OpsMore
  SpecWorld WorldProps SpecPopulation GensKept SpecLocal LocalFacts LocalOps LocalCalls CircusProps GeographyLog SpecCircus SpecSupply SupplyFacts SupplyProps
  PopProps ActFacts SpecLedger LedgerProps SpecRecords RecordsGens RecordsProps SpecNow NowProps RowsProps.
From Coq Require Import Permutation Sorted.

Definition avoids (r : nat) (o : op) : bool :=
  match o with
  | OpSelectOne r' _ _ _ _ _ _ | OpSelectMany r' _ _ _ _ _ | OpRelAdd r' _ _ | OpRelAddGrouped r' _ _ => negb (Nat.eqb r' r)
  | OpChain _ => false
  | _ => true
  end.
Lemma avoids_changes w r o : avoids r o = true -> ~ changes w o (ORelationship r).
Proof.
  intros H C.
  assert (G : forall g, ~ generator_of w g (ORelationship r)) by (intros g (j & K & _); discriminate).
  destruct o; cbn [changes avoids] in *; try discriminate; try contradiction.
  all: try (match type of C with _ /\ _ => destruct C as [_ C]; discriminate end).
  all: try (injection C as ->; rewrite Nat.eqb_refl in H; discriminate).
  all: try exact (G _ C).
  - destruct C as [C|(e & _ & C)]; [discriminate|exact (G _ C)].
  - destruct C as [C|(po & n & x & _ & _ & C)]; discriminate.
  - destruct C as [C|(s & _ & C)]; discriminate.
  - destruct C as [C|C]; [discriminate|exact (G _ C)].
Qed.

Lemma list_same x ops d l0 w d' l w' : (forall o, In o ops -> ~ changes w o x) -> run_list run_op ops d l0 w = (Ok (d', l), w') -> same x w w'.
Proof.
  intros F H. assert (A : Forall (apart w x []) ops) by (apply Forall_forall; intros o Ho; split; [now apply F|intros b c ex []]).
  exact (proj1 (apart_list w x [] ops d l0 w d' l w' A (shape_refl w) H)).
Qed.
Lemma list_avoids r ops d l0 w d' l w' : forallb (avoids r) ops = true -> run_list run_op ops d l0 w = (Ok (d', l), w') -> nth_error (w_rels w') r = nth_error (w_rels w) r.
Proof.
  intros F H. rewrite forallb_forall in F.
  exact (list_same (ORelationship r) ops d l0 w d' l w' (fun o Ho => avoids_changes w r o (F o Ho)) H).
Qed.

Lemma op_avoids r o d w d' l w' : avoids r o = true -> run_op o d w = (Ok (d', l), w') -> nth_error (w_rels w') r = nth_error (w_rels w) r.
Proof.
  intros A H. destruct (merge_logs [] l) as (m & M & _). apply (list_avoids r [o] d [] w d' m w'); [cbn [forallb]; now rewrite A|].
  cbn [run_list]. unfold bindM at 1. rewrite H. unfold bindM, lift. now rewrite M.
Qed.

Section Exec.
  Context (w0 : world) (a : nat) (s0 : story) (o : op) (id : string) (names : list string) (before between afterwards : list op) (cols new cols' : list string).
  Hypothesis Es0 : nth_error (w_stories w0) a = Some s0.
  Hypothesis Eo : st_ops s0 = before ++ o :: between ++ OpFieldLogger id names [] :: afterwards.
  Hypothesis Bb : builds_up [st_field s0] before cols.
  Hypothesis Bt : builds_up cols (o :: between) cols'.
  Hypothesis Wt : widens false (cols ++ new) between cols'.
  Hypothesis Ho : adds o new /\ NoDup new /\ forall c, In c new -> ~ In c cols.
  Hypothesis Hnames : names = [] \/ incl names cols' /\ names <> [].
  Hypothesis Others : Forall (fun o => mute id o = true) (before ++ o :: between ++ afterwards).

  Definition shown_columns : list string := match names with [] => cols' | _ => names end.

  Lemma mute_list w d l0 ops d' l w' : Forall (fun o => mute id o = true) ops -> run_list run_op ops d l0 w = (Ok (d', l), w') -> dget id l = dget id l0.
  Proof.
    intros F H. rewrite Forall_forall in F. exact (list_quiet id ops (fun o' c ex K => mute_quiet id o' c ex (F o' K)) _ _ _ _ _ _ H).
  Qed.

  Record execution (w : world) (s : story) (l : logs) (w' : world) (d1 d2 d3 d5 : df) (v1 v2 v3 v5 : world) : Prop := {
    ex_before : exists l1, run_list run_op before (init_story_data (st_field s) (due_members s)) [] (unforced a s w) = (Ok (d1, l1), v1);
    ex_op : exists l2, run_op o d1 v1 = (Ok (d2, l2), v2);
    ex_between : exists l2 l3, run_list run_op between d2 l2 v2 = (Ok (d3, l3), v3);
    ex_after : exists l4, run_list run_op afterwards d3 l4 v3 = (Ok (d5, l), v5);
    ex_end : w_rels w' = w_rels v5 /\ w_attrs w' = w_attrs v5;
    ex_d1 : df_cols d1 = cols /\ rectangular d1;
    ex_d2 : df_cols d2 = cols ++ new /\ rectangular d2;
    ex_d3 : df_cols d3 = cols' /\ rectangular d3;
    ex_rows1 : forall row, In row (df_rows d1) -> row_now w s before (row_of d1 row);
    ex_rows : forall row, In row (df_rows d3) -> row_now w s (before ++ o :: between) (row_of d3 row);
    ex_columns : forall c, In c (cols ++ new) -> column_of d3 c = column_of d2 c;
    ex_shows : Forall2 (shows shown_columns) (map (row_of d3) (df_rows d3)) (records id l)
  }.

  Lemma exec_parts w l w' : since w0 w -> execute a w = (Ok l, w') ->
    exists s, nth_error (w_stories w) a = Some s /\ st_field s = st_field s0 /\
      ((records id l = [] /\ w_rels w' = w_rels w /\ w_attrs w' = w_attrs w /\ due_members s = []) \/
       exists d1 d2 d3 d5 v1 v2 v3 v5, execution w s l w' d1 d2 d3 d5 v1 v2 v3 v5).
  Proof.
    intros S H. pose proof (CircusFacts.execute_nodup _ _ _ _ H) as Nl.
    apply execute_ok in H as (s & Es & H). destruct (story_then w0 w a S s Es) as (s1 & Es1 & T). assert (s1 = s0) by congruence. subst s1.
    pose proof T as (_ & _ & Tf & _ & _ & _ & _ & To & Ti). exists s. split; [exact Es|]. split; [exact Tf|].
    assert (Tick : forall ids v v', story_tick a ids v = (Ok tt, v') -> w_rels v' = w_rels v /\ w_attrs v' = w_attrs v).
    { intros ids v v' K. destruct (other_fields (HTick a ids) v v' ltac:(discriminate) K) as (_ & _ & -> & ->). auto. }
    assert (Reset : forall ids v v', story_reset a ids v = (Ok tt, v') -> w_rels v' = w_rels v /\ w_attrs v' = w_attrs v).
    { intros ids v v' K. destruct (other_fields (HReset a ids) v v' ltac:(discriminate) K) as (_ & _ & -> & ->). auto. }
    destruct H as [(Hnone & -> & H)|(_ & d & w1 & w2 & H1 & H2 & H3)].
    { left. split; [reflexivity|]. destruct (Tick _ _ _ H) as [-> ->]. auto. }
    right. unfold run_chain in H1. rewrite To, Eo in H1. apply Forall_app in Others as [O1 O2]. inversion O2 as [|? ? Oo O23]; subst. apply Forall_app in O23 as [O3 O4].
    rewrite run_list_app in H1. apply bindM_ok in H1 as ([d1 l1] & v1 & R1 & H1).
    apply run_list_step in H1 as (d2 & l2 & v2 & all2 & R2 & M2 & H1).
    rewrite run_list_app in H1. apply bindM_ok in H1 as ([d3 l3] & v3 & R3 & H1).
    apply run_list_step in H1 as (d4 & l4 & v4 & all4 & R4 & M4 & R5).
    assert (Hd0 : data_after w s [] [st_field s] (init_story_data (st_field s) (due_members s))).
    { split; [reflexivity|]. split; [now left|]. split; [apply init_rect|]. split; [constructor|]. intros row Hin. split; [intros e o' lt E; destruct e; discriminate|].
      cbn [init_story_data df_rows] in Hin. apply in_map_iff in Hin as (i & <- & Hi). unfold row_of. cbn [snd df_cols init_story_data]. cbn [cell]. now rewrite String.eqb_refl. }
    assert (Hh0 : held_after w [] (unforced a s w)).
    { apply unforced_held; [|exact Es]. apply held_start. exact (sc_reach _ _ S). }
    pose proof Bb as Bb'. rewrite <- Tf in Bb'.
    destruct (rows_now w s _ _ _ Bb' [] _ _ (unforced a s w) _ _ _ Hd0 Hh0 eq_refl R1) as (D1 & Hh1 & Hdate1). cbn [app] in D1, Hh1.
    assert (R23 : run_list run_op (o :: between) d1 l1 v1 = (Ok (d3, l3), v3)).
    { cbn [run_list]. unfold bindM at 1. rewrite R2. unfold bindM at 1, lift. rewrite M2. exact R3. }
    destruct (rows_now w s _ _ _ Bt before _ _ v1 _ _ _ D1 Hh1 Hdate1 R23) as ((Hc3 & _ & Rd3 & _ & Hrow3) & _ & _).
    destruct D1 as (Hc1 & _ & Rd1 & _ & Hrow1). destruct Ho as (Ad & Nn & Hf). rewrite <- Hc1 in Hf.
    destruct (other_restricts _ _ _ _ _ _ _ Ad R2 Rd1 Nn Hf) as (Hc2 & kept & (_ & Rd2 & _) & _). rewrite Hc1 in Hc2.
    destruct (widens_list _ _ _ _ Wt _ _ _ _ _ _ Hc2 Rd2 R3) as (_ & _ & Col3). specialize (Col3 eq_refl).
    apply logger_data in R4 as (-> & -> & lg & Elg & ->).
    assert (El2 : dget id l2 = None).
    { apply (logs_nothing id o (fun c ex => mute_quiet id o c ex Oo) _ _ _ _ _ R2). }
    assert (Dl : dget id l = Some lg).
    { rewrite (mute_list _ _ _ _ _ _ _ O4 R5). destruct (merge_logs l3 [(id, lg)]) as (m & M & D).
      assert (m = all4) by congruence. subst m. rewrite D, (mute_list _ _ _ _ _ _ _ O3 R3). destruct (merge_logs l1 l2) as (m & M' & D'). assert (m = all2) by congruence. subst m.
      rewrite D', El2, (mute_list _ _ _ _ _ _ _ O1 R1). cbn [dget]. rewrite keqb_refl. reflexivity. }
    exists d1, d2, d3, d, v1, v2, v3, w1. split; eauto.
    - destruct (Tick _ _ _ H3) as [-> ->]. destruct (st_auto s); [exact (Reset _ _ _ H2)|exact (Tick _ _ _ H2)].
    - intros c Hin. apply (Col3 c Hin).
    - unfold records. rewrite (frames_dict id l Nl), Dl.
      assert (G : Forall2 (shows shown_columns) (map (row_of d3) (df_rows d3)) (map (fun row : val * list val => cell (df_cols lg) (snd row)) (df_rows lg))).
      { unfold shown_columns. destruct Hnames as [->|[In1 In2]].
        - injection Elg as <-. clear. induction (df_rows d3) as [|row rows IH]; [constructor|]. constructor; [|exact IH]. intros c _. reflexivity.
        - rewrite emit_plain in Elg; [|apply Rd3|now rewrite Hc3|exact In2]. injection Elg as <-. cbn [df_rows df_cols].
          assert (Em : match names with [] => cols' | _ => names end = names) by (destruct names; [contradiction|reflexivity]). rewrite Em.
          rewrite map_map. cbn [snd]. clear. induction (df_rows d3) as [|row rows IH]; [constructor|]. constructor; [clear IH|exact IH]. intros c Hin. unfold row_of.
          generalize (cell (df_cols d3) (snd row)). intros f. induction names as [|n l IHn]; [destruct Hin|]. cbn [map cell].
          change (String.eqb c n) with (keqb c n). destruct (keqb_spec c n) as [->|N]; [reflexivity|]. apply IHn. destruct Hin as [Hin|Hin]; [now symmetry in Hin|exact Hin]. }
      destruct (df_rows lg) as [|r0 rs] eqn:Er; cbn [map] in G |- *; [exact G|]. cbn [flat_map]. rewrite Er. cbn [map]. rewrite app_nil_r. exact G.
  Qed.
End Exec.

(** ** Relationships an execution does not concern *)
Lemma exec_avoids w0 a s0 r w l w' : nth_error (w_stories w0) a = Some s0 -> forallb (avoids r) (st_ops s0) = true -> since w0 w -> execute a w = (Ok l, w') ->
  nth_error (w_rels w') r = nth_error (w_rels w) r.
Proof.
  intros Es0 A S H. apply execute_ok in H as (s & Es & H). destruct (story_then w0 w a S s Es) as (s1 & Es1 & T). assert (s1 = s0) by congruence. subst s1.
  pose proof T as (_ & _ & _ & _ & _ & _ & _ & To & _).
  assert (Tick : forall ids v v', story_tick a ids v = (Ok tt, v') -> w_rels v' = w_rels v) by (intros ids v v' K; now destruct (other_fields (HTick a ids) v v' ltac:(discriminate) K) as (_ & _ & -> & _)).
  assert (Reset : forall ids v v', story_reset a ids v = (Ok tt, v') -> w_rels v' = w_rels v) by (intros ids v v' K; now destruct (other_fields (HReset a ids) v v' ltac:(discriminate) K) as (_ & _ & -> & _)).
  destruct H as [(_ & -> & H)|(_ & d & w1 & w2 & H1 & H2 & H3)]; [now rewrite (Tick _ _ _ H)|]. rewrite (Tick _ _ _ H3).
  transitivity (nth_error (w_rels w1) r); [destruct (st_auto s); [now rewrite (Reset _ _ _ H2)|now rewrite (Tick _ _ _ H2)]|].
  unfold run_chain in H1. rewrite To in H1. exact (list_avoids r _ _ _ _ _ _ _ A H1).
Qed.

(** ** Items that change hands *)
Lemma pairs_same_rel w w' r : nth_error (w_rels w') r = nth_error (w_rels w) r -> pairs_of w' r = pairs_of w r.
Proof. unfold pairs_of. now intros ->. Qed.

Lemma sale_pairs r f n wt d w d' l w' rel : run_op (OpSelectOne r f n true true false wt) d w = (Ok (d', l), w') ->
  nth_error (w_rels w) r = Some rel -> reachable rel -> ~ In VNA (map snd (pairs_of w r)) -> rectangular d -> ~ In n (df_cols d) ->
  Permutation (pairs_of w r) (pairs_of w' r ++ actual (listed d' f n)).
Proof.
  intros H Hr Hreach Na R Hn. pose proof (select_one_source _ _ _ _ _ _ _ _ _ _ _ _ H) as Hf.
  destruct (select_one_op _ _ _ _ _ _ _ _ _ _ _ _ _ H Hr Hreach Hn) as (rel' & kept & tos & Ew & _ & A & _ & _ & _ & _ & Hpop).
  assert (Ep : pairs_of w r = map fst (stored rel)) by (unfold pairs_of; now rewrite Hr).
  assert (Nt : no_na_tos rel) by (intros a t q K ->; apply Na; rewrite Ep, map_map; apply in_map_iff; now exists (a, VNA, q)).
  destruct (Hpop eq_refl Nt (or_introl eq_refl)) as (gone & G1 & G2). clear Hpop.
  assert (Ep' : pairs_of w' r = map fst (stored rel')) by (unfold pairs_of; rewrite Ew; cbn [w_rels set_rels]; now rewrite nth_error_set_nth, Nat.eqb_refl, Hr).
  rewrite Ep, Ep', (adds_cells_listed _ _ _ _ _ _ A R Hf Hn), (Permutation_map fst G1), map_app. apply Permutation_app_head. exact G2.
Qed.
Lemma delivery_pairs r f n d w d' l w' rel : run_op (OpRelAdd r f n) d w = (Ok (d', l), w') -> nth_error (w_rels w) r = Some rel -> reachable rel ->
  Permutation (pairs_of w' r) (pairs_of w r ++ listed d f n).
Proof.
  intros H Hr Hreach. destruct (rel_add_op _ _ _ _ _ _ _ _ _ H Hr Hreach) as (rel' & Ew & G).
  assert (Hr' : nth_error (w_rels w') r = Some rel') by (rewrite Ew, nth_error_set_nth, Nat.eqb_refl, Hr; reflexivity).
  unfold pairs_of. rewrite Hr, Hr', (Permutation_map fst G), map_app. apply Permutation_app_head. rewrite map_map. apply Permutation_refl.
Qed.
Lemma bulk_pairs r f n d w d' l w' rel : run_op (OpRelAddGrouped r f n) d w = (Ok (d', l), w') -> nth_error (w_rels w) r = Some rel -> reachable rel ->
  Permutation (pairs_of w' r) (pairs_of w r ++ unpacked (listed d f n)).
Proof.
  intros H Hr Hreach. destruct (rel_add_grouped_op _ _ _ _ _ _ _ _ _ H Hr Hreach) as (rel' & Ew & G).
  assert (Hr' : nth_error (w_rels w') r = Some rel') by (rewrite Ew, nth_error_set_nth, Nat.eqb_refl, Hr; reflexivity).
  unfold pairs_of. rewrite Hr, Hr', (Permutation_map fst G), map_app. apply Permutation_app_head. unfold unpacked, listed. clear.
  induction (df_rows d) as [|row rows IH]; cbn [flat_map map]; [apply Permutation_refl|]. rewrite map_app. apply Permutation_app; [|exact IH].
  cbn [fst snd]. rewrite map_map. apply Permutation_refl.
Qed.
Lemma taken_pairs r f n q pop discard d w d' l w' rel : run_op (OpSelectMany r f n q pop discard) d w = (Ok (d', l), w') -> nth_error (w_rels w) r = Some rel -> reachable rel ->
  ~ In n (df_cols d) -> incl (pairs_of w' r) (pairs_of w r).
Proof.
  intros H Hr Hreach Hn. destruct (select_many_op _ _ _ _ _ _ _ _ _ _ _ _ H Hr Hreach Hn) as (rel' & kept & tos & ns & -> & _ & _ & _ & _ & _ & _ & _ & _ & _ & I & _).
  unfold pairs_of. cbn [w_rels set_rels]. rewrite nth_error_set_nth, Nat.eqb_refl, Hr. intros p Hp. apply in_map_iff in Hp as (x & <- & Hx). apply in_map. auto.
Qed.

Lemma listed_rows d f n : listed d f n = map (fun row : record => (row f, row n)) (map (row_of d) (df_rows d)).
Proof. unfold listed. rewrite map_map. reflexivity. Qed.
