(** The stocks of tests/scenarios/test_snd.py and its logs. *)
From Verif Require Import Base BaseFacts Rng Utils UtilsFacts Relationship RelationshipFacts SpecRelationship Frame Gens Clock SpecClock Attribute SpecAttribute AttributeFacts World Story Ops OpsFacts Helpers
  Circus SpecStory StoryFacts StoryExec SpecOps OpsProps OpsColumns OpsMore SpecCircus SpecPopulation SpecLocal LocalFacts SpecSupply SpecLedger LedgerProps SpecRecords RecordsProps SpecNow NowProps SpecJournal
  RowsProps SpecSafe SafeOps SafeRun GeographyLog Geography Cdr SpecCdr CdrFacts SpecCdrLogs CdrLogs CdrBooks OpRows Snd SpecSnd WorldProps CdrProps SupplyFacts.
From Coq Require Import Permutation Sorted.

Definition lengths (r : list val) : list val := match r with [VList l] => [vnat (length l)] | _ => [VNA] end.
Lemma map_len_rows sources : row_by_row sources 1 map_len lengths.
Proof.
  intros src out Hc H. unfold map_len in H. apply bind_ok in H as (rows & H & E). injection E as <-. cbn [df_cols df_rows]. split; [reflexivity|]. split.
  - apply (mapr_rows _ (fun row : val * list val => (fst row, lengths (snd row))) _ _) in H; [exact H|]. intros row y K. unfold lengths. destruct (snd row) as [|[| | | |l] [|? ?]]; try discriminate. now injection K as <-.
  - intros row _. unfold lengths. now destruct (snd row) as [|[| | | |l] [|? ?]].
Qed.
Lemma add_len sources n : adds (OpApply sources [n] map_len) [n].
Proof. apply (rows_add _ [n] _ _ (map_len_rows sources)). intros d out _ H. unfold map_len in H. apply bind_ok in H as (? & _ & H). injection H as <-. apply one_nodup. Qed.
Lemma add_series f sources n : adds (OpApply sources [n] (series_f f)) [n].
Proof.
  split; [reflexivity|]. intros d out _ H. unfold series_f in H. destruct (_ =? _) eqn:E; [|discriminate]. injection H as <-. split; [|reflexivity]. split; [apply one_nodup|]. cbn [df_rows df_cols].
  intros [i vs] Hin. apply in_combine_r in Hin. apply in_map_iff in Hin as (v & <- & _). reflexivity.
Qed.
Lemma isnull_rows c : by_rows [c] isnull (fun l => VBool (is_na (hd VNA l))).
Proof. intros rows. unfold isnull. cbn [map hd]. rewrite map_map. reflexivity. Qed.
Ltac build_snd new := apply (build_step _ _ new); [first [left; reflexivity|left; apply add_len|left; apply add_series]|reflexivity|cbn [app]].
Ltac widen_snd new := apply (widen_step _ _ new); [first [reflexivity|apply add_len|apply add_series]|reflexivity|reflexivity|cbn [app]].

Section Books.
  Context (w0 : world) (c : snd_names) (distributors dealers agents : list val).
  Hypothesis F : snd_circus w0 c distributors dealers agents.
  Notation dealt := (n_dealer_sims c).
  Notation distributed := (n_distro_sims c).
  Notation owned := (n_agent_sims c).

  Lemma different i j : i <> j -> i < 5 -> j < 5 ->
    let l := [n_distro_sims c; n_dealer_sims c; n_agent_sims c; n_dealers_of c; n_distro_of c] in Nat.eqb (nth i l 0) (nth j l 0) = false.
  Proof. intros N Hi Hj l. apply Nat.eqb_neq. intros E. apply N. exact (proj1 (NoDup_nth l 0) (snd_stocks _ _ _ _ _ F) i j Hi Hj E). Qed.
  Ltac apart i j := let H := fresh in pose proof (different i j ltac:(lia) ltac:(lia) ltac:(lia)) as H; cbn [nth] in H; cbv zeta in H; rewrite H; clear H.
  Lemma rel_then r w : In r [n_distro_sims c; n_dealer_sims c; n_agent_sims c] -> since w0 w -> exists rel, nth_error (w_rels w) r = Some rel /\ reachable rel.
  Proof.
    intros Hr S. destruct (proj2 (snd_reachable _ _ _ _ _ F) r Hr) as (rel0 & E0). assert (r < length (w_rels w0)) by (apply nth_error_Some; congruence).
    destruct (nth_error (w_rels w) r) as [rel|] eqn:E; [|apply nth_error_None in E; rewrite (sc_rels _ _ S) in E; lia].
    exists rel. split; [reflexivity|]. exact (Forall_nth_error _ _ _ _ (sc_reach _ _ S) E).
  Qed.

  Definition stocked (w : world) : Prop := forall r, In r [distributed; dealt] -> ~ In VNA (map snd (pairs_of w r)).

  (** ** Purchases *)
  Definition buying : list op := [OpTimestamp "DATETIME" true (n_fmt c); OpSelectOne (n_dealers_of c) "AGENT" "DEALER" false false false None].
  Definition taking : op := OpSelectOne (n_dealer_sims c) "DEALER" "SOLD_SIM" true true false None.
  Definition noticing : list op := [OpApply ["SOLD_SIM"%string] ["FAILED_SALE"%string] (series_f isnull); OpForce purchases "AGENT" (Some "FAILED_SALE"%string)].
  Definition keeping judge : list op := [OpDropRow "FAILED_SALE"; OpRelAdd (n_agent_sims c) "AGENT" "SOLD_SIM"; OpBack purchases judge].
  Definition purchase_columns : list string := ["AGENT"; "DATETIME"; "DEALER"; "SOLD_SIM"; "FAILED_SALE"]%string.

  Lemma purchases_exec w l w' : since w0 w -> stocked w -> execute purchases w = (Ok l, w') ->
    exists s rows, nth_error (w_stories w) purchases = Some s /\ st_field s = "AGENT"%string /\ Forall2 (shows purchase_columns) rows (records "purchases" l) /\
      Forall (row_now w s (buying ++ taking :: noticing)) rows /\
      Permutation (pairs_of w dealt) (pairs_of w' dealt ++ actual (map (fun row : record => (row "DEALER", row "SOLD_SIM")%string) rows)) /\
      Permutation (pairs_of w' owned) (pairs_of w owned ++ map (fun row : record => (row "AGENT", row "SOLD_SIM")%string) (filter (fun row : record => val_eqb (row "FAILED_SALE"%string) (VBool false)) rows)).
  Proof.
    intros S Na H. destruct (snd_story_purchases _ _ _ _ _ F) as (s0 & Es0 & Ef & _ & judge & Eo).
    unshelve epose proof (exec_parts w0 purchases s0 taking "purchases" [] buying noticing (keeping judge) ["AGENT"; "DATETIME"; "DEALER"]%string ["SOLD_SIM"%string] purchase_columns Es0 _ _ _ _ _ _ _ w l w' S H) as (s & Es & Efs & K).
    - exact Eo.
    - rewrite Ef. unfold buying. build_snd ["DATETIME"]%string. build_snd ["DEALER"]%string. apply built_up.
    - unfold taking, noticing, purchase_columns. build_snd ["SOLD_SIM"]%string. build_snd ["FAILED_SALE"]%string. build_snd (@nil string). apply built_up.
    - unfold noticing, purchase_columns. cbn [app]. widen_snd ["FAILED_SALE"]%string. widen_snd (@nil string). constructor.
    - split; [reflexivity|]. split; [apply one_nodup|]. intros n [<-|[]] [K|[K|[K|[]]]]; discriminate.
    - now left.
    - apply Forall_forall. apply forallb_forall. reflexivity.
    - rewrite Ef in Efs.
      destruct K as [(K & Kr & _)|(d1 & d2 & d3 & d5 & v1 & v2 & v3 & v5 & [(l1 & R1) (l2 & R2) (l3 & l3' & R3) (l4 & R4) (Kr & _) [C1 Rd1] [C2 Rd2] [C3 Rd3] Rows1 Rows Cols Sh])].
      { exists s, []. rewrite K. split; [exact Es|]. split; [exact Efs|]. split; [constructor|]. split; [constructor|]. unfold pairs_of. rewrite Kr. cbn [map actual filter]. rewrite !app_nil_r. split; apply Permutation_refl. }
      exists s, (map (row_of d3) (df_rows d3)). split; [exact Es|]. split; [exact Efs|]. split; [exact Sh|]. split; [apply Forall_forall; intros row Hr; apply in_map_iff in Hr as (r0 & <- & Hr); auto|].
      destruct (rel_then dealt w ltac:(cbn; tauto) S) as (rel & Er & Hreach). destruct (rel_then owned w ltac:(cbn; tauto) S) as (own & Eown & Hown).
      assert (U : forall r, nth_error (w_rels (unforced purchases s w)) r = nth_error (w_rels w) r) by reflexivity.
      assert (X1 : nth_error (w_rels v1) dealt = nth_error (w_rels w) dealt).
      { rewrite (list_avoids dealt buying _ _ _ _ _ _ ltac:(cbn -[Nat.eqb]; apart 3 1; reflexivity) R1). apply U. }
      assert (X3 : nth_error (w_rels v3) dealt = nth_error (w_rels v2) dealt) by exact (list_avoids dealt noticing _ _ _ _ _ _ eq_refl R3).
      assert (X5 : nth_error (w_rels v5) dealt = nth_error (w_rels v3) dealt).
      { apply (list_avoids dealt (keeping judge) _ _ _ _ _ _ ltac:(cbn -[Nat.eqb]; apart 2 1; reflexivity) R4). }
      assert (X' : pairs_of w' dealt = pairs_of v2 dealt) by (unfold pairs_of; now rewrite Kr, X5, X3).
      assert (Y3 : nth_error (w_rels v3) owned = nth_error (w_rels w) owned).
      { rewrite (list_avoids owned noticing _ _ _ _ _ _ ltac:(reflexivity) R3).
        rewrite (op_avoids owned taking _ _ _ _ _ ltac:(cbn -[Nat.eqb]; apart 1 2; reflexivity) R2).
        rewrite (list_avoids owned buying _ _ _ _ _ _ ltac:(cbn -[Nat.eqb]; apart 3 2; reflexivity) R1). apply U. }
      split.
      + rewrite X'. rewrite <- X1 in Er. rewrite <- listed_rows. rewrite (listed_columns d3), (Cols "DEALER"%string), (Cols "SOLD_SIM"%string), <- listed_columns by (cbn; tauto).
        rewrite <- (pairs_same_rel _ _ _ X1). refine (sale_pairs _ _ _ _ _ _ _ _ _ _ R2 Er Hreach _ Rd1 _).
        * rewrite (pairs_same_rel _ _ _ X1). apply Na. cbn. tauto.
        * rewrite C1. apply mem_not_In. reflexivity.
      + unfold keeping in R4. apply run_list_step in R4 as (d4 & l5 & v4 & all5 & D & _ & R4). apply drop_row_exact in D as (_ & -> & C4 & Rows4).
        apply run_list_step in R4 as (d6 & l6 & v6 & all6 & D & _ & R4).
        assert (Z : nth_error (w_rels v5) owned = nth_error (w_rels v6) owned) by exact (list_avoids owned [OpBack purchases judge] _ _ _ _ _ _ eq_refl R4).
        assert (X6 : pairs_of w' owned = pairs_of v6 owned) by (unfold pairs_of; now rewrite Kr, Z).
        rewrite X6. rewrite <- (pairs_same_rel _ _ _ Y3). rewrite <- Y3 in Eown. rewrite (delivery_pairs _ _ _ _ _ _ _ _ _ D Eown Hown). apply Permutation_app_head.
        unfold listed. rewrite C4, Rows4. clear. induction (df_rows d3) as [|row rows IH]; [apply Permutation_refl|]. cbn [map filter]. unfold row_of at 1.
        destruct (val_eqb (cell (df_cols d3) (snd row) "FAILED_SALE") (VBool false)); [|exact IH]. cbn [map]. apply perm_skip. exact IH.
  Qed.
  Lemma sale_told w s row : row_now w s (buying ++ taking :: noticing) row -> row "FAILED_SALE"%string = VBool (is_na (row "SOLD_SIM"%string)).
  Proof.
    intros [T _]. pose proof (T (buying ++ [taking]) (OpApply ["SOLD_SIM"%string] ["FAILED_SALE"%string] (series_f isnull)) [OpForce purchases "AGENT" (Some "FAILED_SALE"%string)] eq_refl) as [K _].
    exact (K isnull _ eq_refl (isnull_rows _)).
  Qed.
  Lemma sold_rows who rows rs : In who purchase_columns -> Forall2 (shows purchase_columns) rows rs -> Forall (fun row : record => row "FAILED_SALE"%string = VBool (is_na (row "SOLD_SIM"%string))) rows ->
    map (fun r : record => (r who, r "SOLD_SIM"%string)) (successful rs) = actual (map (fun row : record => (row who, row "SOLD_SIM"%string)) rows) /\
    map (fun r : record => (r who, r "SOLD_SIM"%string)) (successful rs) =
      map (fun row : record => (row who, row "SOLD_SIM"%string)) (filter (fun row : record => val_eqb (row "FAILED_SALE"%string) (VBool false)) rows).
  Proof.
    intros Hw Sh. induction Sh as [|row r rows rs S1 _ IH]; intros Fl; [split; reflexivity|]. inversion Fl as [|? ? E Fl']; subst. destruct (IH Fl') as [IH1 IH2].
    assert (X1 : r who = row who) by (now apply S1). assert (X2 : r "SOLD_SIM"%string = row "SOLD_SIM"%string) by (apply S1; cbn; tauto).
    assert (X3 : r "FAILED_SALE"%string = row "FAILED_SALE"%string) by (apply S1; cbn; tauto).
    unfold successful in *. cbn [filter map]. unfold actual in *. cbn [map filter snd]. rewrite X3, E.
    destruct (is_na (row "SOLD_SIM"%string)).
    - change (val_eqb (VBool true) (VBool true)) with true. change (val_eqb (VBool true) (VBool false)) with false. cbn [negb]. split; assumption.
    - change (val_eqb (VBool false) (VBool true)) with false. change (val_eqb (VBool false) (VBool false)) with true. cbn [negb map]. rewrite X1, X2. split; f_equal; assumption.
  Qed.

  Lemma purchase_told w s row : nth_error (w_stories w) purchases = Some s -> st_field s = "AGENT"%string -> row_now w s (buying ++ taking :: noticing) row ->
    ~ In VNA (map snd (pairs_of w dealt)) -> a_purchase w c row.
  Proof.
    intros Es Ef Hrow Na. pose proof (sale_told _ _ _ Hrow) as Hs. destruct Hrow as [T Hin]. rewrite Ef in Hin. split; [exists s; auto|].
    assert (Un : forall ops r, forallb (avoids r) ops = true -> untouched_relationship ops r).
    { intros ops r H o o' Ho P M. rewrite forallb_forall in H. specialize (H o Ho). assert (o' = o) by (inversion P; subst; [reflexivity|discriminate H]). subst o'.
      destruct o; cbn in M, H; try contradiction; try (destruct M as [M _]); try subst; rewrite Nat.eqb_refl in H; discriminate. }
    split.
    - pose proof (T [OpTimestamp "DATETIME" true (n_fmt c)] (OpSelectOne (n_dealers_of c) "AGENT" "DEALER" false false false None) (taking :: noticing) eq_refl) as K. cbn in K.
      destruct (K (Un [OpTimestamp "DATETIME" true (n_fmt c)] _ eq_refl)) as [K1|(_ & K1 & K2)]; auto.
    - split; [|exact (T [] _ _ eq_refl)]. pose proof (T buying taking noticing eq_refl) as K. cbn in K. destruct K as [K1|(_ & K1 & K2)].
      + apply Un. cbn -[Nat.eqb]. apart 3 1. reflexivity.
      + left. split; [exact K1|]. rewrite Hs. f_equal. destruct (row "SOLD_SIM"%string) eqn:E; try reflexivity. exfalso. apply Na.
        unfold items, about in K1. apply in_map_iff in K1 as (x & E1 & K1). apply filter_In in K1 as [K1 _]. rewrite <- E1. now apply in_map.
      + right. split; [exact K2|]. split; [exact K1|]. rewrite Hs, K1. reflexivity.
  Qed.

  (** ** Bulk purchases *)
  Definition choosing : list op := [OpTimestamp "DATETIME" true (n_fmt c); OpSelectOne (n_distro_of c) "DEALER_ID" "DISTRIBUTOR" false false false None;
   OpLookup (n_dealers c) "DEALER_ID" [("BULK_BUY_SIZE", "BULK_BUY_SIZE")]%string].
  Definition grabbing : op := OpSelectMany (n_distro_sims c) "DISTRIBUTOR" "SIM_BULK" "BULK_BUY_SIZE" true true.
  Definition storing : op := OpRelAddGrouped (n_dealer_sims c) "DEALER_ID" "SIM_BULK".
  Definition reporting : list op := [OpApply ["SIM_BULK"%string] ["NUMBER_OF_SIMS"%string] map_len; OpAttrAdd (n_to_restock c) "DISTRIBUTOR" "NUMBER_OF_SIMS" false; OpForce restock "DISTRIBUTOR" None].
  Definition bulk_columns : list string := ["DEALER_ID"; "DISTRIBUTOR"; "NUMBER_OF_SIMS"]%string.

  Lemma bulk_exec w l w' : since w0 w -> execute bulk_purchases w = (Ok l, w') ->
    exists s rows, nth_error (w_stories w) bulk_purchases = Some s /\ st_field s = "DEALER_ID"%string /\ Forall2 (shows bulk_columns) rows (records "bulk_purchases" l) /\
      Forall (row_now w s ((choosing ++ [grabbing]) ++ storing :: reporting)) rows /\
      Permutation (pairs_of w' dealt) (pairs_of w dealt ++ unpacked (map (fun row : record => (row "DEALER_ID", row "SIM_BULK")%string) rows)).
  Proof.
    intros S H. destruct (snd_story_bulk _ _ _ _ _ F) as (s0 & Es0 & Ef & _ & judge & Eo).
    unshelve epose proof (exec_parts w0 bulk_purchases s0 storing "bulk_purchases" bulk_columns (choosing ++ [grabbing]) reporting [OpBack bulk_purchases judge]
      ["DEALER_ID"; "DATETIME"; "DISTRIBUTOR"; "BULK_BUY_SIZE"; "SIM_BULK"]%string [] ["DEALER_ID"; "DATETIME"; "DISTRIBUTOR"; "BULK_BUY_SIZE"; "SIM_BULK"; "NUMBER_OF_SIMS"]%string
      Es0 _ _ _ _ _ _ _ w l w' S H) as (s & Es & Efs & K).
    - exact Eo.
    - rewrite Ef. unfold choosing, grabbing. cbn [app]. build_snd ["DATETIME"]%string. build_snd ["DISTRIBUTOR"]%string. build_snd ["BULK_BUY_SIZE"]%string. build_snd ["SIM_BULK"]%string. apply built_up.
    - unfold storing, reporting. build_snd (@nil string). build_snd ["NUMBER_OF_SIMS"]%string. build_snd (@nil string). build_snd (@nil string). apply built_up.
    - unfold reporting. cbn [app]. widen_snd ["NUMBER_OF_SIMS"]%string. widen_snd (@nil string). widen_snd (@nil string). constructor.
    - split; [reflexivity|]. split; [constructor|]. intros n [].
    - right. split; [apply incl_check; reflexivity|discriminate].
    - apply Forall_forall. apply forallb_forall. reflexivity.
    - rewrite Ef in Efs.
      destruct K as [(K & Kr & _)|(d1 & d2 & d3 & d5 & v1 & v2 & v3 & v5 & [(l1 & R1) (l2 & R2) (l3 & l3' & R3) (l4 & R4) (Kr & _) [C1 Rd1] [C2 Rd2] [C3 Rd3] Rows1 Rows Cols Sh])].
      { exists s, []. rewrite K. split; [exact Es|]. split; [exact Efs|]. split; [constructor|]. split; [constructor|]. unfold pairs_of. rewrite Kr. cbn [map unpacked flat_map]. rewrite !app_nil_r. apply Permutation_refl. }
      exists s, (map (row_of d3) (df_rows d3)). split; [exact Es|]. split; [exact Efs|]. split; [exact Sh|]. split; [apply Forall_forall; intros row Hr; apply in_map_iff in Hr as (r0 & <- & Hr); auto|].
      destruct (rel_then dealt w ltac:(cbn; tauto) S) as (rel & Er & Hreach).
      assert (X1 : nth_error (w_rels v1) dealt = nth_error (w_rels w) dealt) by exact (list_avoids dealt (choosing ++ [grabbing]) _ _ _ _ _ _ ltac:(cbn -[Nat.eqb]; apart 4 1; apart 0 1; reflexivity) R1).
      assert (X3 : nth_error (w_rels v3) dealt = nth_error (w_rels v2) dealt) by exact (list_avoids dealt reporting _ _ _ _ _ _ eq_refl R3).
      assert (X5 : nth_error (w_rels v5) dealt = nth_error (w_rels v3) dealt) by exact (list_avoids dealt [OpBack bulk_purchases judge] _ _ _ _ _ _ eq_refl R4).
      assert (X' : pairs_of w' dealt = pairs_of v2 dealt) by (unfold pairs_of; now rewrite Kr, X5, X3).
      destruct (side_effect_data storing _ _ _ _ _ eq_refl R2) as [-> _].
      rewrite X'. rewrite <- X1 in Er. rewrite <- listed_rows. rewrite (listed_columns d3), (Cols "DEALER_ID"%string), (Cols "SIM_BULK"%string), <- listed_columns by (cbn; tauto).
      rewrite <- (pairs_same_rel _ _ _ X1). exact (bulk_pairs _ _ _ _ _ _ _ _ _ R2 Er Hreach).
  Qed.
  Lemma grab_exec w l w' : since w0 w -> execute bulk_purchases w = (Ok l, w') -> incl (pairs_of w' distributed) (pairs_of w distributed).
  Proof.
    intros S H. destruct (snd_story_bulk _ _ _ _ _ F) as (s0 & Es0 & Ef & _ & judge & Eo).
    unshelve epose proof (exec_parts w0 bulk_purchases s0 grabbing "bulk_purchases" bulk_columns choosing (storing :: reporting) [OpBack bulk_purchases judge]
      ["DEALER_ID"; "DATETIME"; "DISTRIBUTOR"; "BULK_BUY_SIZE"]%string ["SIM_BULK"%string] ["DEALER_ID"; "DATETIME"; "DISTRIBUTOR"; "BULK_BUY_SIZE"; "SIM_BULK"; "NUMBER_OF_SIMS"]%string
      Es0 _ _ _ _ _ _ _ w l w' S H) as (s & Es & Efs & K).
    - exact Eo.
    - rewrite Ef. unfold choosing, grabbing. cbn [app]. build_snd ["DATETIME"]%string. build_snd ["DISTRIBUTOR"]%string. build_snd ["BULK_BUY_SIZE"]%string. apply built_up.
    - unfold grabbing, storing, reporting. build_snd ["SIM_BULK"]%string. build_snd (@nil string). build_snd ["NUMBER_OF_SIMS"]%string. build_snd (@nil string). build_snd (@nil string). apply built_up.
    - unfold storing, reporting. cbn [app]. widen_snd (@nil string). widen_snd ["NUMBER_OF_SIMS"]%string. widen_snd (@nil string). widen_snd (@nil string). constructor.
    - split; [reflexivity|]. split; [apply one_nodup|]. intros n [<-|[]]. apply mem_not_In. reflexivity.
    - right. split; [apply incl_check; reflexivity|discriminate].
    - apply Forall_forall. apply forallb_forall. reflexivity.
    - destruct K as [(K & Kr & _)|(d1 & d2 & d3 & d5 & v1 & v2 & v3 & v5 & [(l1 & R1) (l2 & R2) (l3 & l3' & R3) (l4 & R4) (Kr & _) [C1 Rd1] [C2 Rd2] [C3 Rd3] Rows1 Rows Cols Sh])].
      { unfold pairs_of. rewrite Kr. apply incl_refl. }
      destruct (rel_then distributed w ltac:(cbn; tauto) S) as (rel & Er & Hreach).
      assert (X1 : nth_error (w_rels v1) distributed = nth_error (w_rels w) distributed) by exact (list_avoids distributed choosing _ _ _ _ _ _ ltac:(cbn -[Nat.eqb]; apart 4 0; reflexivity) R1).
      assert (X3 : nth_error (w_rels v3) distributed = nth_error (w_rels v2) distributed) by exact (list_avoids distributed (storing :: reporting) _ _ _ _ _ _ ltac:(cbn -[Nat.eqb]; apart 1 0; reflexivity) R3).
      assert (X5 : nth_error (w_rels v5) distributed = nth_error (w_rels v3) distributed) by exact (list_avoids distributed [OpBack bulk_purchases judge] _ _ _ _ _ _ eq_refl R4).
      assert (X' : pairs_of w' distributed = pairs_of v2 distributed) by (unfold pairs_of; now rewrite Kr, X5, X3).
      rewrite X', <- (pairs_same_rel _ _ _ X1). rewrite <- X1 in Er. apply (taken_pairs _ _ _ _ _ _ _ _ _ _ _ _ R2 Er Hreach). rewrite C1. apply mem_not_In. reflexivity.
  Qed.

  Lemma bulk_told w s row : row_now w s ((choosing ++ [grabbing]) ++ storing :: reporting) row ->
    exists ts, row "SIM_BULK"%string = VList ts /\ row "NUMBER_OF_SIMS"%string = vnat (length ts) /\ incl ts (items w distributed (row "DISTRIBUTOR"%string)).
  Proof.
    intros [T _]. pose proof (T choosing grabbing (storing :: reporting) eq_refl) as K. cbn in K. destruct K as (ts & n & others & E1 & _ & _ & P).
    { intros o o' Ho Pt M. destruct Ho as [<-|[<-|[<-|[]]]]; inversion Pt; subst; cbn in M; try contradiction. destruct M as [_ M]. discriminate. }
    exists ts. split; [exact E1|]. split.
    - pose proof (T (choosing ++ [grabbing; storing]) (OpApply ["SIM_BULK"%string] ["NUMBER_OF_SIMS"%string] map_len) (tl reporting) eq_refl) as [_ K].
      specialize (K lengths (map_len_rows _)). cbn [map] in K. rewrite E1 in K. cbn [lengths] in K. now injection K.
    - intros t Ht. apply (Permutation_in _ (Permutation_sym P)). apply in_or_app. now left.
  Qed.

  (** ** Restocking *)
  Definition ordering : list op := [OpTimestamp "DATETIME" true (n_fmt c); OpLookup (n_distros c) "DISTRIBUTOR_ID" [("SIMS_TO_RESTOCK", "SIMS_TO_RESTOCK")]%string;
   OpGenerate (n_sim_ids c) "NEW_SIMS_IDS" (Some "SIMS_TO_RESTOCK"%string)].
  Definition receiving : op := OpRelAddGrouped (n_distro_sims c) "DISTRIBUTOR_ID" "NEW_SIMS_IDS".
  Definition settling : list op := [OpAttrAdd (n_to_restock c) "DISTRIBUTOR_ID" "SIMS_TO_RESTOCK" true].
  Definition restock_columns : list string := ["DATETIME"; "DISTRIBUTOR_ID"; "SIMS_TO_RESTOCK"]%string.
  Lemma restock_exec w l w' : since w0 w -> execute restock w = (Ok l, w') ->
    exists s rows, nth_error (w_stories w) restock = Some s /\ st_field s = "DISTRIBUTOR_ID"%string /\ Forall2 (shows restock_columns) rows (records "distributor_restock" l) /\
      Forall (row_now w s (ordering ++ receiving :: settling)) rows /\
      Permutation (pairs_of w' distributed) (pairs_of w distributed ++ unpacked (map (fun row : record => (row "DISTRIBUTOR_ID", row "NEW_SIMS_IDS")%string) rows)).
  Proof.
    intros S H. destruct (snd_story_restock _ _ _ _ _ F) as (s0 & Es0 & Ef & _ & judge & Eo).
    unshelve epose proof (exec_parts w0 restock s0 receiving "distributor_restock" restock_columns ordering settling [OpBack restock judge]
      ["DISTRIBUTOR_ID"; "DATETIME"; "SIMS_TO_RESTOCK"; "NEW_SIMS_IDS"]%string [] ["DISTRIBUTOR_ID"; "DATETIME"; "SIMS_TO_RESTOCK"; "NEW_SIMS_IDS"]%string
      Es0 _ _ _ _ _ _ _ w l w' S H) as (s & Es & Efs & K).
    - exact Eo.
    - rewrite Ef. unfold ordering. build_snd ["DATETIME"]%string. build_snd ["SIMS_TO_RESTOCK"]%string. build_snd ["NEW_SIMS_IDS"]%string. apply built_up.
    - unfold receiving, settling. build_snd (@nil string). build_snd (@nil string). apply built_up.
    - unfold settling. cbn [app]. widen_snd (@nil string). constructor.
    - split; [reflexivity|]. split; [constructor|]. intros n [].
    - right. split; [apply incl_check; reflexivity|discriminate].
    - apply Forall_forall. apply forallb_forall. reflexivity.
    - rewrite Ef in Efs.
      destruct K as [(K & Kr & _)|(d1 & d2 & d3 & d5 & v1 & v2 & v3 & v5 & [(l1 & R1) (l2 & R2) (l3 & l3' & R3) (l4 & R4) (Kr & _) [C1 Rd1] [C2 Rd2] [C3 Rd3] Rows1 Rows Cols Sh])].
      { exists s, []. rewrite K. split; [exact Es|]. split; [exact Efs|]. split; [constructor|]. split; [constructor|]. unfold pairs_of. rewrite Kr. cbn [map unpacked flat_map]. rewrite !app_nil_r. apply Permutation_refl. }
      exists s, (map (row_of d3) (df_rows d3)). split; [exact Es|]. split; [exact Efs|]. split; [exact Sh|]. split; [apply Forall_forall; intros row Hr; apply in_map_iff in Hr as (r0 & <- & Hr); auto|].
      destruct (rel_then distributed w ltac:(cbn; tauto) S) as (rel & Er & Hreach).
      assert (X1 : nth_error (w_rels v1) distributed = nth_error (w_rels w) distributed) by exact (list_avoids distributed ordering _ _ _ _ _ _ eq_refl R1).
      assert (X3 : nth_error (w_rels v3) distributed = nth_error (w_rels v2) distributed) by exact (list_avoids distributed settling _ _ _ _ _ _ eq_refl R3).
      assert (X5 : nth_error (w_rels v5) distributed = nth_error (w_rels v3) distributed) by exact (list_avoids distributed [OpBack restock judge] _ _ _ _ _ _ eq_refl R4).
      assert (X' : pairs_of w' distributed = pairs_of v2 distributed) by (unfold pairs_of; now rewrite Kr, X5, X3).
      destruct (side_effect_data receiving _ _ _ _ _ eq_refl R2) as [-> _].
      rewrite X'. rewrite <- X1 in Er. rewrite <- listed_rows. rewrite (listed_columns d3), (Cols "DISTRIBUTOR_ID"%string), (Cols "NEW_SIMS_IDS"%string), <- listed_columns by (cbn; tauto).
      rewrite <- (pairs_same_rel _ _ _ X1). exact (bulk_pairs _ _ _ _ _ _ _ _ _ R2 Er Hreach).
  Qed.
  Lemma restock_told w s row : since w0 w -> row_now w s (ordering ++ receiving :: settling) row -> exists ts, row "NEW_SIMS_IDS"%string = VList ts /\ ~ In VNA ts.
  Proof.
    intros S [T _]. pose proof (T (firstn 2 ordering) (OpGenerate (n_sim_ids c) "NEW_SIMS_IDS" (Some "SIMS_TO_RESTOCK"%string)) (receiving :: settling) eq_refl) as K. cbn in K.
    destruct K as (ts & E & K). exists ts. split; [exact E|]. intros Hn. rewrite Forall_forall in K. specialize (K _ Hn).
    destruct (snd_sims _ _ _ _ _ F) as (_ & Nr & Ng). apply Ng. exact (can_give_kept _ _ _ (sc_gens _ _ S) Nr _ K).
  Qed.

  (** ** What each story leaves alone *)
  Lemma idle r a field members ops w l w' : is_story w0 a field members ops -> forallb (avoids r) ops = true -> since w0 w -> execute a w = (Ok l, w') -> pairs_of w' r = pairs_of w r.
  Proof.
    intros (s0 & Es0 & _ & _ & judge & Eo) A S H. apply pairs_same_rel. apply (exec_avoids w0 a s0 r w l w' Es0); [|exact S|exact H]. rewrite Eo, forallb_app, A. reflexivity.
  Qed.
  Lemma silent id a field members ops w l w' : is_story w0 a field members ops -> forallb (mute id) ops = true -> since w0 w -> execute a w = (Ok l, w') -> records id l = [].
  Proof.
    intros (s0 & Es0 & _ & _ & judge & Eo) A S H. apply (exec_silent w0 a s0 Es0 id w l w' S); [|exact H]. rewrite Eo. intros o Ho. rewrite forallb_forall in A. apply in_app_iff in Ho as [Ho|[<-|[]]]; [auto|reflexivity].
  Qed.

  Definition sold_in (L : logs) : list record := successful (records "purchases" L).
  Record booked (w : world) (L : logs) (w' : world) : Prop := {
    bk_stocked : stocked w';
    bk_owned : Permutation (pairs_of w' owned) (pairs_of w owned ++ map (fun r : record => (r "AGENT", r "SOLD_SIM")%string) (sold_in L));
    bk_dealt : forall d, (qnat (length (items w' dealt d)) + qnat (length (of_whom "DEALER" d (sold_in L))) =
      qnat (length (items w dealt d)) + sum_shown "NUMBER_OF_SIMS" (of_whom "DEALER_ID" d (records "bulk_purchases" L)))%Qc
  }.

  Lemma qnat_add a b : qnat (a + b) = (qnat a + qnat b)%Qc.
  Proof. unfold qnat. apply Qc_is_canon. cbn [this Q2Qc Qcplus]. rewrite !Qred_correct. rewrite Nat2Z.inj_add, inject_Z_plus. reflexivity. Qed.
  Lemma about_perm k l m : Permutation l m -> length (about k l) = length (about k m).
  Proof. intros P. apply Permutation_length. now apply perm_filter. Qed.
  Lemma about_app k l m : about k (l ++ m) = about k l ++ about k m.
  Proof. apply filter_app. Qed.
  Lemma items_length w r k : length (items w r k) = length (about k (pairs_of w r)).
  Proof. apply map_length. Qed.
  Lemma of_whom_pairs who what k (rs : list record) : length (of_whom who k rs) = length (about k (map (fun r : record => (r who, r what)) rs)).
  Proof. unfold of_whom, about. induction rs as [|r rs IH]; [reflexivity|]. cbn [map filter fst]. destruct (val_eqb (r who) k); cbn [length]; now rewrite IH. Qed.
  Lemma about_pairs k j (ts : list val) : length (about k (map (pair j) ts)) = if val_eqb j k then length ts else 0.
  Proof.
    unfold about. destruct (val_eqb j k) eqn:E; induction ts as [|t ts IH]; cbn [map filter fst length]; try reflexivity; rewrite E; [cbn [length]; now rewrite IH|exact IH].
  Qed.
  Lemma shown_sum k rows rs : Forall2 (shows bulk_columns) rows rs -> Forall (fun row : record => exists ts, row "SIM_BULK"%string = VList ts /\ row "NUMBER_OF_SIMS"%string = vnat (length ts)) rows ->
    sum_shown "NUMBER_OF_SIMS" (of_whom "DEALER_ID" k rs) = qnat (length (about k (unpacked (map (fun row : record => (row "DEALER_ID", row "SIM_BULK")%string) rows)))).
  Proof.
    induction 1 as [|row r rows rs S1 _ IH]; intros Fl; [reflexivity|]. inversion Fl as [|? ? (ts & E1 & E2) Fl']; subst. specialize (IH Fl').
    assert (X1 : r "DEALER_ID"%string = row "DEALER_ID"%string) by (apply S1; cbn; tauto). assert (X2 : r "NUMBER_OF_SIMS"%string = row "NUMBER_OF_SIMS"%string) by (apply S1; cbn; tauto).
    unfold of_whom, unpacked, sum_shown in *. cbn [filter map flat_map fst snd]. rewrite X1, about_app, app_length, qnat_add, E1. cbn [list_of]. rewrite about_pairs, <- IH.
    destruct (val_eqb (row "DEALER_ID"%string) k); [|change (qnat 0) with 0%Qc; ring]. cbn [map total]. rewrite X2, E2. reflexivity.
  Qed.

  Lemma stocked_by w w' : stocked w -> incl (map snd (pairs_of w' distributed)) (map snd (pairs_of w distributed)) ->
    incl (map snd (pairs_of w' dealt)) (map snd (pairs_of w distributed) ++ map snd (pairs_of w dealt)) -> stocked w'.
  Proof.
    intros N I1 I2 r Hr K. pose proof (N distributed ltac:(cbn; tauto)) as N1. pose proof (N dealt ltac:(cbn; tauto)) as N2. destruct Hr as [<-|[<-|[]]].
    - exact (N1 (I1 _ K)).
    - apply I2 in K. apply in_app_iff in K as [K|K]; auto.
  Qed.
  Lemma no_change w l w' : stocked w -> pairs_of w' distributed = pairs_of w distributed -> pairs_of w' dealt = pairs_of w dealt -> pairs_of w' owned = pairs_of w owned ->
    records "purchases" l = [] -> records "bulk_purchases" l = [] -> booked w l w'.
  Proof.
    intros N E1 E2 E3 R1 R2. split.
    - apply (stocked_by w); [exact N|rewrite E1; apply incl_refl|rewrite E2; apply incl_appr, incl_refl].
    - unfold sold_in. rewrite R1, E3. cbn. rewrite app_nil_r. apply Permutation_refl.
    - intros d. unfold sold_in. rewrite R1, R2. rewrite !items_length, E2. reflexivity.
  Qed.

  Lemma booked_exec a w l w' : since w0 w -> stocked w -> execute a w = (Ok l, w') -> booked w l w'.
  Proof.
    intros S N H.
    destruct a as [|[|[|[|[|[|a]]]]]].
    - pose proof (snd_story_restock _ _ _ _ _ F) as Hs. destruct (restock_exec w l w' S H) as (s & rows & _ & _ & _ & Rows & P).
      assert (E2 : pairs_of w' dealt = pairs_of w dealt) by (refine (idle dealt _ _ _ (snd_restock c) w l w' Hs _ S H); cbn -[Nat.eqb]; apart 0 1; reflexivity).
      assert (E3 : pairs_of w' owned = pairs_of w owned) by (refine (idle owned _ _ _ (snd_restock c) w l w' Hs _ S H); cbn -[Nat.eqb]; apart 0 2; reflexivity).
      pose proof (silent "purchases" _ _ _ _ _ _ _ Hs eq_refl S H) as R1. pose proof (silent "bulk_purchases" _ _ _ _ _ _ _ Hs eq_refl S H) as R2.
      split.
      + intros r [<-|[<-|[]]]; [|rewrite E2; apply N; cbn; tauto]. intros K. apply (Permutation_in _ (Permutation_map snd P)) in K. rewrite map_app in K. apply in_app_iff in K as [K|K]; [exact (N distributed ltac:(cbn; tauto) K)|].
        apply in_map_iff in K as (x & E & K). unfold unpacked in K. apply in_flat_map in K as (y & Hy & K). apply in_map_iff in Hy as (row & <- & Hy). cbn [fst snd] in K.
        rewrite Forall_forall in Rows. destruct (restock_told w s row S (Rows _ Hy)) as (ts & Et & Nt). rewrite Et in K. cbn [list_of] in K. apply in_map_iff in K as (v & <- & K). cbn [snd] in E. subst v. exact (Nt K).
      + unfold sold_in. rewrite R1, E3. cbn. rewrite app_nil_r. apply Permutation_refl.
      + intros d. unfold sold_in. rewrite R1, R2, !items_length, E2. reflexivity.
    - pose proof (snd_story_purchases _ _ _ _ _ F) as Hs. destruct (purchases_exec w l w' S N H) as (s & rows & Es & Ef & Sh & Rows & P1 & P2).
      assert (E1 : pairs_of w' distributed = pairs_of w distributed) by (refine (idle distributed _ _ _ (snd_purchases c) w l w' Hs _ S H); cbn -[Nat.eqb]; apart 3 0; apart 1 0; apart 2 0; reflexivity).
      pose proof (silent "bulk_purchases" _ _ _ _ _ _ _ Hs eq_refl S H) as R2.
      assert (Fl : Forall (fun row : record => row "FAILED_SALE"%string = VBool (is_na (row "SOLD_SIM"%string))) rows) by (eapply Forall_impl; [|exact Rows]; intros row; apply sale_told).
      split.
      + apply (stocked_by w); [exact N|rewrite E1; apply incl_refl|]. intros x Hx. apply in_or_app. right. apply (Permutation_in _ (Permutation_sym (Permutation_map snd P1))). rewrite map_app. apply in_or_app. now left.
      + unfold sold_in. rewrite (proj2 (sold_rows "AGENT" _ _ ltac:(cbn; tauto) Sh Fl)). exact P2.
      + intros d. unfold sold_in. rewrite R2. change (sum_shown _ (of_whom _ d [])) with 0%Qc. rewrite !items_length, (about_perm d _ _ P1), about_app, app_length, qnat_add.
        rewrite (of_whom_pairs "DEALER" "SOLD_SIM"), (proj1 (sold_rows "DEALER" _ _ ltac:(cbn; tauto) Sh Fl)). ring.
    - pose proof (snd_story_bulk _ _ _ _ _ F) as Hs. destruct (bulk_exec w l w' S H) as (s & rows & Es & Ef & Sh & Rows & P). pose proof (grab_exec w l w' S H) as I.
      assert (E3 : pairs_of w' owned = pairs_of w owned) by (refine (idle owned _ _ _ (snd_bulk_purchases c) w l w' Hs _ S H); cbn -[Nat.eqb]; apart 4 2; apart 0 2; apart 1 2; reflexivity).
      pose proof (silent "purchases" _ _ _ _ _ _ _ Hs eq_refl S H) as R1. rewrite Forall_forall in Rows.
      split.
      + apply (stocked_by w); [exact N|now apply incl_map|]. intros x Hx. apply (Permutation_in _ (Permutation_map snd P)) in Hx. rewrite map_app in Hx. apply in_app_iff in Hx as [Hx|Hx]; [apply in_or_app; now right|].
        apply in_or_app. left. apply in_map_iff in Hx as (p & <- & K). unfold unpacked in K. apply in_flat_map in K as (y & Hy & K). apply in_map_iff in Hy as (row & <- & Hy). cbn [fst snd] in K.
        destruct (bulk_told w s row (Rows _ Hy)) as (ts & Et & _ & It). rewrite Et in K. cbn [list_of] in K. apply in_map_iff in K as (v & <- & K). cbn [snd]. apply It in K. unfold items, about in K.
        apply in_map_iff in K as (z & <- & K). apply filter_In in K as [K _]. now apply in_map.
      + unfold sold_in. rewrite R1, E3. cbn. rewrite app_nil_r. apply Permutation_refl.
      + intros d. unfold sold_in. rewrite R1. change (qnat (length (of_whom "DEALER" d (successful [])))) with 0%Qc. rewrite !items_length, (about_perm d _ _ P), about_app, app_length, qnat_add.
        rewrite (shown_sum d rows _ Sh); [ring|]. apply Forall_forall. intros row Hr. destruct (bulk_told w s row (Rows _ Hr)) as (ts & Et & En & _). eauto.
    - pose proof (snd_story_start _ _ _ _ _ F) as Hs. apply no_change; [exact N|exact (idle distributed _ _ _ _ _ _ _ Hs eq_refl S H)|exact (idle dealt _ _ _ _ _ _ _ Hs eq_refl S H)|exact (idle owned _ _ _ _ _ _ _ Hs eq_refl S H)|exact (silent "purchases" _ _ _ _ _ _ _ Hs eq_refl S H)|exact (silent "bulk_purchases" _ _ _ _ _ _ _ Hs eq_refl S H)].
    - pose proof (snd_story_stops _ _ _ _ _ F) as Hs. apply no_change; [exact N|exact (idle distributed _ _ _ _ _ _ _ Hs eq_refl S H)|exact (idle dealt _ _ _ _ _ _ _ Hs eq_refl S H)|exact (idle owned _ _ _ _ _ _ _ Hs eq_refl S H)|exact (silent "purchases" _ _ _ _ _ _ _ Hs eq_refl S H)|exact (silent "bulk_purchases" _ _ _ _ _ _ _ Hs eq_refl S H)].
    - pose proof (snd_story_reviews _ _ _ _ _ F) as Hs. apply no_change; [exact N|exact (idle distributed _ _ _ _ _ _ _ Hs eq_refl S H)|exact (idle dealt _ _ _ _ _ _ _ Hs eq_refl S H)|exact (idle owned _ _ _ _ _ _ _ Hs eq_refl S H)|exact (silent "purchases" _ _ _ _ _ _ _ Hs eq_refl S H)|exact (silent "bulk_purchases" _ _ _ _ _ _ _ Hs eq_refl S H)].
    - exfalso. apply execute_ok in H as (s & Es & _). destruct (story_then w0 w _ S s Es) as (s0 & Es0 & _). change (nth_error (w_stories w0) (6 + a) = Some s0) in Es0.
      assert (X : nth_error (w_stories w0) (6 + a) = None) by (apply nth_error_None; rewrite (snd_six _ _ _ _ _ F); lia). congruence.
  Qed.

  (** ** Histories *)
  Lemma booked_trans w L1 w1 L2 w2 : booked w L1 w1 -> booked w1 L2 w2 -> booked w (L1 ++ L2) w2.
  Proof.
    intros [_ P1 D1] [N2 P2 D2]. split; [exact N2| |].
    - unfold sold_in, successful in *. rewrite records_app, (filter_app (A := record)), map_app, app_assoc, P2. apply Permutation_app_tail. exact P1.
    - intros d. specialize (D1 d). specialize (D2 d). unfold sold_in, successful, of_whom, sum_shown in *. rewrite !records_app, !(filter_app (A := record)), app_length, qnat_add, map_app.
      assert (T : forall a b : list val, SpecCdrLogs.total (a ++ b) = (SpecCdrLogs.total a + SpecCdrLogs.total b)%Qc).
      { intros a b. induction a as [|v a IH]; cbn [app SpecCdrLogs.total]; [ring|]. destruct v; rewrite ?IH; ring. }
      rewrite T.
      match goal with |- (?x + (?a + ?b) = ?y + (?u + ?v))%Qc => transitivity (x + b + a)%Qc; [ring|]; rewrite D2; transitivity (y + u + v)%Qc; [rewrite <- D1; ring|ring] end.
  Qed.
  Lemma booked_history hs : forall w L w', since w0 w -> stocked w -> emits w hs L w' -> since w0 w' /\ booked w L w'.
  Proof.
    induction hs as [|h hs IH]; intros w L w' S N H.
    - inversion H; subst. split; [exact S|]. apply no_change; auto.
    - inversion H as [|y1 a l w1 y5 L' y7 Hx He|y1 y2 w1 y4 y5 y6 Hno Hh1 He]; subst.
      + pose proof (booked_exec a w l w1 S N Hx) as B. destruct (IH _ _ _ (exec_since w0 _ _ _ _ S Hx) (bk_stocked _ _ _ B) He) as [S2 B2]. split; [exact S2|]. exact (booked_trans _ _ _ _ _ B B2).
      + pose proof (other_fields h w w1 Hno Hh1) as (_ & _ & Er & _).
        assert (B : booked w [] w1) by (apply no_change; auto; unfold pairs_of; now rewrite Er).
        destruct (IH _ _ _ (other_since w0 _ _ _ Hno Hh1 S) (bk_stocked _ _ _ B) He) as [S2 B2]. split; [exact S2|]. exact (booked_trans w [] w1 L w' B B2).
  Qed.

  Lemma start_since : since w0 w0.
  Proof. apply held_start. exact (proj1 (snd_reachable _ _ _ _ _ F)). Qed.
  Lemma start_stocked : stocked w0.
  Proof. exact (proj1 (snd_sims _ _ _ _ _ F)). Qed.
  Lemma booked_all hs L w' : emits w0 hs L w' -> booked w0 L w'.
  Proof. intros H. exact (proj2 (booked_history hs _ _ _ start_since start_stocked H)). Qed.

  Lemma a_purchase_shown w row r : shows purchase_columns row r -> a_purchase w c row -> a_purchase w c r.
  Proof.
    intros Sh. unfold a_purchase. rewrite (Sh "AGENT"%string), (Sh "DEALER"%string), (Sh "SOLD_SIM"%string), (Sh "FAILED_SALE"%string), (Sh "DATETIME"%string) by (cbn; tauto). auto.
  Qed.
  Lemma purchases_true a w l w' : since w0 w -> stocked w -> execute a w = (Ok l, w') -> Forall (a_purchase w c) (records "purchases" l).
  Proof.
    intros S N H. assert (a = purchases \/ a <> purchases) as [->|Na] by (unfold purchases; lia).
    - destruct (purchases_exec w l w' S N H) as (s & rows & Es & Ef & Sh & Rows & _). apply Forall_forall. intros r Hr. destruct (shown_in _ _ _ _ Sh Hr) as (row & Hin & S1).
      rewrite Forall_forall in Rows. apply (a_purchase_shown w row r S1). apply (purchase_told w s row Es Ef (Rows _ Hin)). apply N. cbn. tauto.
    - assert (E : records "purchases" l = []); [|rewrite E; constructor]. destruct a as [|[|[|[|[|[|a]]]]]].
      + exact (silent "purchases" _ _ _ _ _ _ _ (snd_story_restock _ _ _ _ _ F) eq_refl S H).
      + exfalso. now apply Na.
      + exact (silent "purchases" _ _ _ _ _ _ _ (snd_story_bulk _ _ _ _ _ F) eq_refl S H).
      + exact (silent "purchases" _ _ _ _ _ _ _ (snd_story_start _ _ _ _ _ F) eq_refl S H).
      + exact (silent "purchases" _ _ _ _ _ _ _ (snd_story_stops _ _ _ _ _ F) eq_refl S H).
      + exact (silent "purchases" _ _ _ _ _ _ _ (snd_story_reviews _ _ _ _ _ F) eq_refl S H).
      + exfalso. apply execute_ok in H as (s & Es & _). destruct (story_then w0 w _ S s Es) as (s0 & Es0 & _). change (nth_error (w_stories w0) (6 + a) = Some s0) in Es0.
        assert (X : nth_error (w_stories w0) (6 + a) = None) by (apply nth_error_None; rewrite (snd_six _ _ _ _ _ F); lia). congruence.
  Qed.
  Lemma purchases_history hs L w' : emits w0 hs L w' ->
    exists pasts, Forall2 (fun p r => exists a future L1 w1, hs = p ++ HExec a :: future /\ emits w0 p L1 w1 /\ a_purchase w1 c r) pasts (records "purchases" L) /\ StronglySorted earlier pasts.
  Proof.
    intros H. destruct (history_each w0 "purchases" (fun w a r => stocked w -> a_purchase w c r)) with (hs := hs) (past := @nil happening) (L0 := @nil (string * df)) (w := w0) (L := L) (w' := w') as (pasts & K1 & K2 & _).
    - intros a w l w1 S Hx. apply Forall_forall. intros r Hr N. pose proof (purchases_true a w l w1 S N Hx) as K. rewrite Forall_forall in K. auto.
    - exact start_since.
    - constructor.
    - exact H.
    - exists pasts. split; [|exact K2]. eapply Forall2_weaken; [|exact K1]. intros p r (a & future & L1 & w1 & E & He & K). cbn [app] in E. exists a, future, L1, w1. split; [exact E|]. split; [exact He|].
      apply K. exact (bk_stocked _ _ _ (booked_all _ _ _ He)).
  Qed.
End Books.
