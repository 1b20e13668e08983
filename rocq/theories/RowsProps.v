(** Stories that update an attribute and then log: the rows behind the records. *)
From Verif Require CircusFacts.
From Verif Require Import Base BaseFacts Rng Utils UtilsFacts Relationship RelationshipFacts SpecRelationship RelationshipProps Frame Gens Clock SpecClock ClockProps
  Attribute SpecAttribute AttributeFacts World Story Ops OpsFacts Fs Helpers HelpersFacts Circus SpecStory StoryFacts StoryExec StoryProps SpecOps OpsProps OpsColumns OpsMore
  SpecWorld WorldProps SpecPopulation GensKept SpecLocal LocalFacts LocalOps LocalCalls CircusProps GeographyLog SpecCircus SpecSupply SupplyFacts SupplyProps
  PopProps ActFacts SpecLedger LedgerProps SpecRecords RecordsGens RecordsProps SpecNow NowProps SpecJournal JournalProps.
From Coq Require Import Permutation Sorted.

(** ** Checks by computation *)
Definition leaves (x : nat) (o : op) : bool :=
  match o with
  | OpAttrUpdate a _ _ | OpAttrAdd a _ _ _ => negb (Nat.eqb a x)
  | OpPopUpdate _ _ _ | OpChain _ => false
  | _ => true
  end.
Lemma leaves_changes w x o : leaves x o = true -> ~ changes w o (OAttribute x).
Proof.
  intros H C.
  assert (G : forall g, ~ generator_of w g (OAttribute x)) by (intros g (j & K & _); discriminate).
  destruct o; cbn [changes leaves] in *; try discriminate; try contradiction.
  all: try (match type of C with _ /\ _ => destruct C as [_ C]; discriminate end).
  all: try (injection C as ->; rewrite Nat.eqb_refl in H; discriminate).
  all: try exact (G _ C).
  - destruct C as [C|(e & _ & C)]; [discriminate|exact (G _ C)].
  - destruct C as [C|(s & _ & C)]; discriminate.
  - destruct C as [C|C]; [discriminate|exact (G _ C)].
Qed.
Definition mute (id : string) (o : op) : bool :=
  match o with OpFieldLogger i _ _ => negb (String.eqb i id) | OpChain _ => false | _ => true end.
Lemma mute_quiet id o c ex : mute id o = true -> ~ part_of (OpFieldLogger id c ex) o.
Proof. intros H K. inversion K; subst; cbn in H; [rewrite String.eqb_refl in H|]; discriminate. Qed.

Lemma builds_up_app cols a : forall b mid cols', builds_up cols a mid -> builds_up mid b cols' -> builds_up cols (a ++ b) cols'.
Proof. intros b mid cols' H K. induction H as [|cols o new ops mid Br Nn Hf Hr _ IH]; [exact K|]. cbn [app]. eapply builds_by; eauto. Qed.

Section Rows.
  Context (w0 : world) (s0 : story).

  Definition known (cols : list string) (o : op) : Prop := exists new, brings o new /\ incl (reads o ++ new) cols.
  Definition data_after (before : list op) (cols : list string) (d : df) : Prop :=
    df_cols d = cols /\ In (st_field s0) cols /\ rectangular d /\ Forall (known cols) before /\
    forall row, In row (df_rows d) -> row_now w0 s0 before (row_of d row).

  Lemma rows_now cols ops cols' : builds_up cols ops cols' -> forall before d l0 w d' l w',
    data_after before cols d -> held_after w0 before w -> c_date (w_clock w) = c_date (w_clock w0) -> run_list run_op ops d l0 w = (Ok (d', l), w') ->
    data_after (before ++ ops) cols' d' /\ held_after w0 (before ++ ops) w' /\ c_date (w_clock w') = c_date (w_clock w0).
  Proof.
    induction 1 as [cols|cols o new ops cols' Br Nn Hf Hr _ IH]; intros before d l0 w d' l w' D S Hd H.
    - cbn [run_list] in H. injection H as <- <- <-. rewrite app_nil_r. auto.
    - destruct D as (Hc & Hfield & Rd & Hb & Hrow). apply run_list_step in H as (d1 & l1 & w1 & all & H1 & M & H).
      pose proof (held_next w0 before _ _ _ _ _ _ S H1) as S1.
      assert (Hd1 : c_date (w_clock w1) = c_date (w_clock w0)).
      { rewrite <- Hd. refine (proj2 (op_held w0 (fun _ => False) (fun _ => False) o d w d1 l1 w1 _ _ H1)); [split; intros ? []|].
        eapply held_weaken; [| |exact S]; intros ? []. }
      rewrite <- Hc in Hf, Hr.
      assert (Ne : df_cols d <> []) by (rewrite Hc; intros K; rewrite K in Hfield; destruct Hfield).
      destruct (brings_rows _ _ _ _ _ _ _ Br H1 Rd Nn Hf Ne) as (Hc1 & Rd1 & Hrows).
      pose proof (op_tells_given w0 _ _ _ _ _ _ _ _ _ _ Br S Hd H1 Rd Nn Hf Hr) as T.
      replace (before ++ o :: ops) with ((before ++ [o]) ++ ops) by (rewrite <- app_assoc; reflexivity).
      refine (IH (before ++ [o]) d1 all w1 d' l w' _ S1 Hd1 H). split; [now rewrite Hc1, Hc|]. split; [apply in_or_app; now left|]. split; [exact Rd1|]. split.
      + apply Forall_app. split.
        * eapply Forall_impl; [|exact Hb]. cbv beta. intros o' (n' & B' & I'). exists n'. split; [exact B'|]. intros c Hin. apply in_or_app. left. now apply I'.
        * constructor; [|constructor]. exists new. split; [exact Br|]. intros c Hin. apply in_app_or in Hin as [Hin|Hin]; apply in_or_app; [left|now right].
          rewrite <- Hc. now apply Hr.
      + intros row' Hin. destruct (Hrows _ Hin) as (row & Hin0 & Ag). destruct (Hrow _ Hin0) as [F Hm]. split.
        * intros e o' lt E. apply split_last in E as [(-> & -> & ->)|(lt' & -> & E)]; [now apply T|].
          rewrite Forall_forall in Hb. assert (Ho' : In o' before) by (rewrite E; apply in_or_app; right; now left).
          destruct (Hb _ Ho') as (n' & B' & I'). eapply tells_given_agree; [exact B'|exact I'| |eapply F; exact E]. now rewrite <- Hc.
        * rewrite (Ag (st_field s0)) by (rewrite Hc; exact Hfield). exact Hm.
  Qed.
End Rows.

(** The record shows the columns [names] of the row. *)
Definition shows (names : list string) (row r : record) : Prop := forall c, In c names -> r c = row c.

(** The attribute [x] takes the values [what] of the members [who] of the rows. *)
Definition overwritten (x : nat) (who what : string) (rows : list record) (w w' : world) : Prop :=
  single_valued w x -> single_valued w' x /\ NoDup (map (fun row : record => row who) rows) /\
  forall k v, holds w' x k v <-> (exists row, In row rows /\ row who = k /\ row what = v) \/ ~ In k (map (fun row : record => row who) rows) /\ holds w x k v.

Lemma overwritten_none x who what w w' : same (OAttribute x) w w' -> overwritten x who what [] w w'.
Proof.
  intros E Sv. cbn in E. split; [unfold single_valued; now rewrite E|]. split; [constructor|]. intros k v. unfold holds. rewrite E. cbn. split; [tauto|].
  intros [(row & [] & _)|[_ H]]; exact H.
Qed.

Lemma column_preserved dropping cols ops cols' d l0 w d' l w' : widens dropping cols ops cols' -> dropping = false -> df_cols d = cols -> rectangular d ->
  run_list run_op ops d l0 w = (Ok (d', l), w') -> forall c, In c cols -> column_of d' c = column_of d c.
Proof. intros W E Hc R H c Hin. subst dropping. destruct (widens_list _ _ _ _ W _ _ _ _ _ _ Hc R H) as (_ & _ & K). apply (K eq_refl c Hin). Qed.

Section Exec.
  Context (w0 : world) (a : nat) (s0 : story) (x : nat) (who what id : string) (names : list string) (before between afterwards : list op) (cols cols' : list string).
  Hypothesis Es0 : nth_error (w_stories w0) a = Some s0.
  Hypothesis Eo : st_ops s0 = before ++ OpAttrUpdate x who what :: between ++ OpFieldLogger id names [] :: afterwards.
  Hypothesis Bb : builds_up [st_field s0] before cols.
  Hypothesis Bt : builds_up cols (OpAttrUpdate x who what :: between) cols'.
  Hypothesis Wt : widens false cols between cols'.
  Hypothesis Hwho : In who cols.
  Hypothesis Hwhat : In what cols.
  Hypothesis Hnames : incl names cols' /\ names <> [].
  Hypothesis Others : Forall (fun o => leaves x o = true /\ mute id o = true) (before ++ between ++ afterwards).

  Lemma part_same w d l0 ops d' l w' : Forall (fun o => leaves x o = true /\ mute id o = true) ops -> run_list run_op ops d l0 w = (Ok (d', l), w') ->
    same (OAttribute x) w w' /\ dget id l = dget id l0.
  Proof.
    intros F H. rewrite Forall_forall in F.
    assert (A : Forall (apart w (OAttribute x) [Book id who what]) ops).
    { apply Forall_forall. intros o Ho. destruct (F _ Ho) as [F1 F2]. split; [now apply leaves_changes|]. intros b c ex [<-|[]]. now apply mute_quiet. }
    destruct (apart_list w (OAttribute x) [Book id who what] ops d l0 w d' l w' A (shape_refl w) H) as (S & _ & K). split; [exact S|]. apply (K _ (or_introl eq_refl)).
  Qed.

  Lemma exec_rows w l w' : since w0 w -> execute a w = (Ok l, w') ->
    exists s rows, nth_error (w_stories w) a = Some s /\ st_field s = st_field s0 /\
      Forall2 (shows names) rows (records id l) /\
      Forall (row_now w s (before ++ OpAttrUpdate x who what :: between)) rows /\
      overwritten x who what rows w w'.
  Proof.
    intros S H. pose proof (CircusFacts.execute_nodup _ _ _ _ H) as Nl.
    apply execute_ok in H as (s & Es & H). destruct (story_then w0 w a S s Es) as (s1 & Es1 & T). assert (s1 = s0) by congruence. subst s1.
    pose proof T as (_ & _ & Tf & _ & _ & _ & _ & To & Ti). exists s.
    assert (Sf : same (OAttribute x) w (unforced a s w)) by reflexivity.
    assert (Tick : forall ids v v', story_tick a ids v = (Ok tt, v') -> same (OAttribute x) v v').
    { intros ids v v' K. cbn. destruct (other_fields (HTick a ids) v v' ltac:(discriminate) K) as (_ & _ & _ & ->). reflexivity. }
    assert (Reset : forall ids v v', story_reset a ids v = (Ok tt, v') -> same (OAttribute x) v v').
    { intros ids v v' K. cbn. destruct (other_fields (HReset a ids) v v' ltac:(discriminate) K) as (_ & _ & _ & ->). reflexivity. }
    destruct H as [(_ & -> & H)|(_ & d & w1 & w2 & H1 & H2 & H3)].
    { exists []. split; [exact Es|]. split; [exact Tf|]. split; [constructor|]. split; [constructor|]. apply overwritten_none. eapply same_trans; [exact Sf|eapply Tick; exact H]. }
    assert (S3 : same (OAttribute x) w1 w').
    { eapply same_trans; [|eapply Tick; exact H3]. destruct (st_auto s); [eapply Reset|eapply Tick]; exact H2. }
    unfold run_chain in H1. rewrite To, Eo in H1. apply Forall_app in Others as [O1 O2]. apply Forall_app in O2 as [O2 O3].
    rewrite run_list_app in H1. apply bindM_ok in H1 as ([d1 l1] & v1 & R1 & H1).
    apply run_list_step in H1 as (d2 & l2 & v2 & all2 & R2 & M2 & H1).
    rewrite run_list_app in H1. apply bindM_ok in H1 as ([d3 l3] & v3 & R3 & H1).
    apply run_list_step in H1 as (d4 & l4 & v4 & all4 & R4 & M4 & R5).
    destruct (part_same _ _ _ _ _ _ _ O1 R1) as [Sm1 L1]. destruct (part_same _ _ _ _ _ _ _ O2 R3) as [Sm3 L3]. destruct (part_same _ _ _ _ _ _ _ O3 R5) as [Sm5 L5].
    assert (Hd0 : data_after w s [] [st_field s] (init_story_data (st_field s) (due_members s))).
    { split; [reflexivity|]. split; [now left|]. split; [apply init_rect|]. split; [constructor|]. intros row Hin. split; [intros e o lt E; destruct e; discriminate|].
      cbn [init_story_data df_rows] in Hin. apply in_map_iff in Hin as (i & <- & Hi). unfold row_of. cbn [snd df_cols init_story_data]. cbn [cell]. now rewrite String.eqb_refl. }
    assert (Hh0 : held_after w [] (unforced a s w)).
    { apply unforced_held; [|exact Es]. apply held_start. exact (sc_reach _ _ S). }
    pose proof Bb as Bb'. rewrite <- Tf in Bb'.
    destruct (rows_now w s _ _ _ Bb' [] _ _ (unforced a s w) _ _ _ Hd0 Hh0 eq_refl R1) as (D1 & Hh1 & Hdate1). cbn [app] in D1, Hh1.
    assert (R23 : run_list run_op (OpAttrUpdate x who what :: between) d1 l1 v1 = (Ok (d3, l3), v3)).
    { cbn [run_list]. unfold bindM at 1. rewrite R2. unfold bindM at 1, lift. rewrite M2. exact R3. }
    destruct (rows_now w s _ _ _ Bt before _ _ v1 _ _ _ D1 Hh1 Hdate1 R23) as ((Hc3 & _ & Rd3 & _ & Hrow3) & _ & _).
    destruct D1 as (Hc1 & _ & Rd1 & _ & _).
    exists (map (row_of d3) (df_rows d3)). split; [exact Es|]. split; [exact Tf|].
    apply logger_data in R4 as (-> & -> & lg & Elg & ->). destruct Hnames as [In1 In2]. rewrite emit_plain in Elg; [|apply Rd3|now rewrite Hc3|exact In2]. injection Elg as <-.
    assert (El2 : l2 = [] /\ d2 = d1).
    { cbn [run_op] in R2. unfold side_effect in R2. mstep R2. now injection R2 as <- <- _. }
    destruct El2 as [-> ->].
    assert (Dl : dget id l = Some (mkDf names (map (fun row => (fst row, map (cell (df_cols d3) (snd row)) names)) (df_rows d3)))).
    { rewrite L5. destruct (merge_logs l3 [(id, mkDf names (map (fun row => (fst row, map (cell (df_cols d3) (snd row)) names)) (df_rows d3)))]) as (m & M & D).
      assert (m = all4) by congruence. subst m. rewrite D. rewrite L3. destruct (merge_logs l1 []) as (m & M' & D'). assert (m = all2) by congruence. subst m. rewrite D', L1.
      cbn [dget]. rewrite keqb_refl. reflexivity. }
    split; [|split].
    - unfold records. rewrite (frames_dict id l Nl), Dl. cbn [df_rows].
      assert (G : Forall2 (shows names) (map (row_of d3) (df_rows d3))
        (map (fun row : val * list val => cell names (snd row)) (map (fun row => (fst row, map (cell (df_cols d3) (snd row)) names)) (df_rows d3)))).
      { rewrite map_map. cbn [snd]. clear. induction (df_rows d3) as [|row rows IH]; [constructor|]. constructor; [clear IH|exact IH]. intros c Hin. unfold row_of.
        generalize (cell (df_cols d3) (snd row)). intros f. induction names as [|n l IHn]; [destruct Hin|]. cbn [map cell].
        change (String.eqb c n) with (keqb c n). destruct (keqb_spec c n) as [->|N]; [reflexivity|]. apply IHn. destruct Hin as [Hin|Hin]; [now symmetry in Hin|exact Hin]. }
      destruct (df_rows d3) as [|r0 rs]; [constructor|]. cbn [map flat_map] in G |- *. rewrite app_nil_r. exact G.
    - apply Forall_forall. intros r Hr. apply in_map_iff in Hr as (row & <- & Hin). exact (Hrow3 _ Hin).
    - intros Sv. assert (Sv1 : single_valued v1 x) by (unfold single_valued; cbn in Sf, Sm1; now rewrite Sm1).
      destruct (act_attr_update _ _ _ _ _ _ _ _ R2 Sv1) as (_ & _ & _ & Sv2 & Nd & Hh).
      assert (El : listed d1 who what = map (fun row => (row who, row what)) (map (row_of d3) (df_rows d3))).
      { rewrite map_map. change (map _ (df_rows d3)) with (listed d3 who what). rewrite !listed_columns.
        now rewrite (column_preserved _ _ _ _ _ _ _ _ _ _ Wt eq_refl Hc1 Rd1 R3 who Hwho), (column_preserved _ _ _ _ _ _ _ _ _ _ Wt eq_refl Hc1 Rd1 R3 what Hwhat). }
      assert (Em : map fst (listed d1 who what) = map (fun row : record => row who) (map (row_of d3) (df_rows d3))) by (rewrite El, map_map; reflexivity).
      rewrite Em in Nd, Hh. rewrite El in Hh.
      assert (E2 : nth_error (w_attrs w') x = nth_error (w_attrs v2) x) by (cbn in S3, Sm5, Sm3; congruence).
      assert (E1 : nth_error (w_attrs v1) x = nth_error (w_attrs w) x) by (cbn in Sf, Sm1; congruence).
      split; [unfold single_valued; now rewrite E2|]. split; [exact Nd|]. intros k v. unfold holds at 1. rewrite E2. fold (holds v2 x k v). rewrite Hh.
      unfold holds at 1. rewrite E1. fold (holds w x k v). apply or_iff_compat_r. rewrite in_map_iff. split.
      + intros (row & [= <- <-] & Hin). exists row. auto.
      + intros (row & Hin & <- & <-). exists row. auto.
  Qed.
End Exec.

(** ** Stories that do not log, or do not change an attribute *)
Section Silent.
  Context (w0 : world) (a : nat) (s0 : story) (Es0 : nth_error (w_stories w0) a = Some s0).
  Lemma exec_silent id w l w' : since w0 w -> (forall o, In o (st_ops s0) -> mute id o = true) -> execute a w = (Ok l, w') -> records id l = [].
  Proof.
    intros S Q H. pose proof (CircusFacts.execute_nodup _ _ _ _ H) as Nl. apply execute_ok in H as (s & Es & H). destruct (story_then w0 w a S s Es) as (s1 & Es1 & T).
    assert (s1 = s0) by congruence. subst s1. pose proof T as (_ & _ & _ & _ & _ & _ & _ & To & _).
    destruct H as [(_ & -> & H)|(_ & d & w1 & w2 & H1 & _)]; [reflexivity|]. unfold run_chain in H1. rewrite To in H1.
    assert (K : dget id l = None) by (rewrite (list_quiet id _ (fun o c ex Ho => mute_quiet id o c ex (Q o Ho)) _ _ _ _ _ _ H1); reflexivity).
    unfold records. now rewrite (frames_dict id l Nl), K.
  Qed.
  Lemma exec_same x w l w' : since w0 w -> (forall o, In o (st_ops s0) -> leaves x o = true) -> execute a w = (Ok l, w') -> same (OAttribute x) w w'.
  Proof.
    intros S Q H. apply execute_ok in H as (s & Es & H). destruct (story_then w0 w a S s Es) as (s1 & Es1 & T).
    assert (s1 = s0) by congruence. subst s1. pose proof T as (_ & _ & _ & _ & _ & _ & _ & To & _).
    assert (Tick : forall ids v v', story_tick a ids v = (Ok tt, v') -> same (OAttribute x) v v').
    { intros ids v v' K. cbn. destruct (other_fields (HTick a ids) v v' ltac:(discriminate) K) as (_ & _ & _ & ->). reflexivity. }
    assert (Reset : forall ids v v', story_reset a ids v = (Ok tt, v') -> same (OAttribute x) v v').
    { intros ids v v' K. cbn. destruct (other_fields (HReset a ids) v v' ltac:(discriminate) K) as (_ & _ & _ & ->). reflexivity. }
    assert (Sf : same (OAttribute x) w (unforced a s w)) by reflexivity.
    destruct H as [(_ & _ & H)|(_ & d & w1 & w2 & H1 & H2 & H3)]; [eapply same_trans; [exact Sf|eapply Tick; exact H]|].
    assert (S3 : same (OAttribute x) w1 w').
    { eapply same_trans; [|eapply Tick; exact H3]. destruct (st_auto s); [eapply Reset|eapply Tick]; exact H2. }
    unfold run_chain in H1. rewrite To in H1.
    assert (A : Forall (apart (unforced a s w) (OAttribute x) []) (st_ops s0)).
    { apply Forall_forall. intros o Ho. split; [apply leaves_changes; auto|intros b c ex []]. }
    destruct (apart_list _ (OAttribute x) [] _ _ _ _ _ _ _ A (shape_refl _) H1) as (S1 & _). eapply same_trans; [exact Sf|]. eapply same_trans; eauto.
  Qed.
End Silent.
