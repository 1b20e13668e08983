(** Logs whose records are numbered by a sequential generator. *)
From Verif Require CircusFacts.
From Verif Require Import Base BaseFacts Rng Utils UtilsFacts Relationship RelationshipFacts SpecRelationship RelationshipProps Frame Gens GensProps Clock SpecClock ClockProps
  Attribute SpecAttribute AttributeFacts World Story Ops OpsFacts Fs Helpers HelpersFacts Circus SpecStory StoryFacts StoryExec StoryProps SpecOps OpsProps OpsColumns OpsMore
  SpecWorld WorldProps SpecPopulation GensKept SpecLocal LocalFacts LocalOps LocalCalls CircusProps GeographyLog SpecCircus SpecSupply SupplyFacts SupplyProps
  PopProps ActFacts SpecLedger LedgerProps SpecRecords RecordsGens RecordsProps SpecNow NowProps SpecJournal JournalProps SpecNumbers.

Lemma ids_from_build start prefix width n : ids_from start prefix width n = map VStr (build_ids (Z.of_nat n) start prefix width).
Proof. unfold ids_from, build_ids. now rewrite map_map, Nat2Z.id. Qed.
Lemma ids_from_app start prefix width n m : ids_from start prefix width (n + m) = ids_from start prefix width n ++ ids_from (start + Z.of_nat n) prefix width m.
Proof. rewrite !ids_from_build, Nat2Z.inj_add, build_ids_app, map_app by lia. reflexivity. Qed.
Lemma ids_from_NoDup start prefix width n : NoDup (ids_from start prefix width n).
Proof. rewrite ids_from_build. apply seq_ids_NoDup. Qed.

Section Numbers.
  Context (g : nat) (b : book) (prefix : string) (width : nat).
  Lemma numbers_adds o new b' : numbers g b o new b' -> adds o new /\ NoDup new /\ forall id cols ex, ~ part_of (OpFieldLogger id cols ex) o.
  Proof. intros []. split; [reflexivity|]. split; [repeat constructor; intros []|]. intros id cols ex K; inversion K. Qed.

  Definition counted (w : world) (L : logs) (w' : world) : Prop := forall start, nth_error (w_gens w) g = Some (GSeq start prefix width) ->
    map fst (entries b L) = ids_from start prefix width (length (entries b L)) /\
    nth_error (w_gens w') g = Some (GSeq (start + Z.of_nat (length (entries b L))) prefix width).

  Lemma counted_same w w' : same (OGenerator g) w w' -> counted w [] w'.
  Proof. intros E start H. cbn in *. rewrite E, H, Z.add_0_r. auto. Qed.
  Lemma counted_trans w L1 w1 L2 w2 : counted w L1 w1 -> counted w1 L2 w2 -> counted w (L1 ++ L2) w2.
  Proof.
    intros C1 C2 start H. destruct (C1 _ H) as [E1 H1]. destruct (C2 _ H1) as [E2 H2]. rewrite entries_app, map_app, app_length, E1, E2, ids_from_app, H2.
    split; [reflexivity|]. do 2 f_equal. lia.
  Qed.
  Lemma counted_ext w L L' w' : (forall b', In b' [b] -> entries b' L = entries b' L') -> counted w L w' -> counted w L' w'.
  Proof. intros E. unfold counted. rewrite (E b); [auto|now left]. Qed.

  Lemma counted_once w L w' : entered_once (OGenerator g) [b] (numbers g b) w w' L -> counted w L w'.
  Proof.
    intros (o & new & b' & d1 & d2 & l1 & w1 & w2 & T & Hb & Rd & Hnew & S1 & H & S2 & Rd2 & Eb & Eo & _) start Hg. destruct T. cbn in S1, S2.
    specialize (Hnew _ (or_introl eq_refl)). destruct (generate_adds _ _ _ _ _ _ _ H Hnew) as (vs & gens' & Ev & Ad & ->).
    rewrite <- S1 in Hg. unfold random_values, gen_generate in Ev. cbn [heap_generate] in Ev. rewrite Hg in Ev. cbn [gen_step bind] in Ev. injection Ev as <- <-.
    assert (Ec : map fst (entries b L) = map VStr (build_ids (Z.of_nat (length (df_rows d1))) start prefix width)).
    { rewrite Eb. unfold listed. rewrite map_map. cbn [fst]. change (column_of d2 (who b) = map VStr (build_ids (Z.of_nat (length (df_rows d1))) start prefix width)). exact (adds_cells_column _ _ _ _ _ (adds_column_cells _ _ _ _ Ad) Rd Hnew). }
    assert (El : length (entries b L) = length (df_rows d1)).
    { rewrite <- (map_length fst), Ec, map_length, build_ids_length. apply Nat2Z.id. }
    rewrite El, ids_from_build. split; [exact Ec|]. rewrite S2. cbn [w_gens set_gens]. rewrite nth_error_set_nth, Nat.eqb_refl, Hg. reflexivity.
  Qed.
End Numbers.

Lemma numbered_records w g b start prefix width hs L w' : numbered_by w g b start prefix width -> emits w hs L w' ->
  let rs := records (log_of b) L in
  map (fun r : record => r (who b)) rs = ids_from start prefix width (length rs) /\
  nth_error (w_gens w') g = Some (GSeq (start + Z.of_nat (length rs)) prefix width).
Proof.
  intros [Hg K] H. cbv zeta.
  assert (C : counted g b prefix width w L w').
  { refine (emits_entered w (OGenerator g) [b] (numbers g b) (numbers_adds g b) _ K _
      (counted g b prefix width) (counted_same g b prefix width) (counted_trans g b prefix width) (counted_ext g b prefix width) _ hs w L w' (books_inv_start w) H).
    - cbn. repeat constructor. intros [].
    - right; right; right; eauto.
    - intros v l v' E. now apply counted_once. }
  destruct (C _ Hg) as [E1 E2]. rewrite entries_records, map_map, map_length in *. split; [exact E1|exact E2].
Qed.
