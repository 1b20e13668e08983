(** The orders of the distributors of tests/scenarios/test_snd.py. *)
From Verif Require Import Base BaseFacts Rng Utils UtilsFacts Relationship RelationshipFacts SpecRelationship Frame Gens Clock SpecClock Attribute SpecAttribute AttributeFacts World Story Ops OpsFacts Helpers
  Circus SpecStory StoryFacts StoryProps StoryExec SpecOps OpsProps OpsColumns OpsMore SpecCircus SpecPopulation SpecLocal LocalFacts SpecSupply SpecLedger LedgerProps SpecRecords RecordsProps SpecNow NowProps SpecJournal
  RowsProps SpecSafe GensKept GensProps RecordsGens SafeGens SafeOps SafeRun GeographyLog Geography Cdr SpecCdr CdrFacts SpecCdrLogs CdrLogs CdrBooks OpRows Snd SpecSnd SpecSndReady WorldProps CdrProps SupplyFacts SndBooks SndTruth SndSafe SupplyProps StoryMore StoryForce SpecSndRestock.
From Coq Require Import Permutation Sorted.

Definition credits : book := Book "bulk_purchases" "DISTRIBUTOR" "NUMBER_OF_SIMS".
Definition debits : book := Book "distributor_restock" "DISTRIBUTOR_ID" "SIMS_TO_RESTOCK".

Lemma entries_records b L : entries b L = map (fun r : record => (r (who b), r (what b))) (records (log_of b) L).
Proof.
  unfold entries, records. induction (frames_of (log_of b) L) as [|d ds IH]; [reflexivity|]. cbn [flat_map]. rewrite map_app. f_equal; [|exact IH].
  unfold listed. rewrite map_map. reflexivity.
Qed.
Lemma total_shown k f n (rs : list record) : SpecAttribute.total k (map (fun r : record => (r f, r n)) rs) = sum_shown n (of_whom f k rs).
Proof.
  induction rs as [|r rs IH]; [reflexivity|]. unfold sum_shown, of_whom in *. cbn [map filter SpecAttribute.total fold_right]. fold (SpecAttribute.total k (map (fun r : record => (r f, r n)) rs)). rewrite IH.
  destruct (val_eqb (r f) k); [cbn [map total]|]; destruct (r n); reflexivity.
Qed.
Lemma credited k L : SpecAttribute.total k (entries credits L) = bought_from k (records "bulk_purchases" L).
Proof. rewrite entries_records. exact (total_shown k _ _ _). Qed.
Lemma debited k L : SpecAttribute.total k (entries debits L) = restocked k (records "distributor_restock" L).
Proof. rewrite entries_records. exact (total_shown k _ _ _). Qed.

Lemma history_det w hs w1 : history w hs w1 -> forall w2, history w hs w2 -> w1 = w2.
Proof.
  induction 1 as [w|w h w1 l w2 E H IH]; intros w3 K; inversion K; subst; [reflexivity|]. apply IH.
  match goal with K : happen h w = (Ok tt, ?x), K2 : history ?x l w3 |- _ => rewrite E in K; injection K as <-; exact K2 end.
Qed.

(** ** Lists drawn with a quantity per row have that many elements. *)
Lemma generated_lengths h0 g n q d w d' l w' : gens_kept h0 (w_gens w) -> never_refuses h0 g -> rectangular d -> ~ In n (df_cols d) -> In q (df_cols d) ->
  run_op (OpGenerate g n (Some q)) d w = (Ok (d', l), w') ->
  forall row, In row (df_rows d') -> exists ts, row_of d' row n = VList ts /\ row_of d' row q = vnat (length ts).
Proof.
  intros K Nr Rd Hf Hq H. cbn [run_op] in H. apply bindM_ok in H. destruct H as (r & w1 & H1 & H). injection H as <- _ <-.
  mstep H1. apply lift_ok in E. destruct E as [E ->]. mstep H1. injection E0 as <- <-.
  mstep H1. destruct x0 as [vs gens']. apply lift_ok in E0. destruct E0 as [E0 ->]. mstep H1. injection E1 as <- <-.
  mstep H1. apply lift_ok in E1. destruct E1 as [E1 ->]. apply lift_ok in H1. destruct H1 as [H1 ->].
  apply bind_ok in E as (s & Es & E). injection E as <-. apply get_col_cells in Es. subst s. rewrite map_map in E0. cbn [snd] in E0.
  pose proof (column_adds _ _ _ _ _ E1 H1 Hf) as A. cbn [random_values] in E0. apply bind_ok in E0 as (zs & Hz & E0). apply bind_ok in E0 as ([flat h1] & Hg & E0).
  destruct (existsb _ zs) eqn:Ee; [easy|]. injection E0 as <- <-.
  assert (Hnn : Forall (fun z => 0 <= z)%Z zs).
  { apply Forall_forall. intros z Hin. destruct (Z.ltb_spec z 0) as [Hlt|]; [|easy]. assert (existsb (fun n => n <? 0)%Z zs = true); [|congruence]. apply existsb_exists. exists z. split; [easy|]. now apply Z.ltb_lt. }
  assert (Hsum : zsum zs = Z.of_nat (nsum (map Z.to_nat zs))) by (clear - Hnn; induction Hnn; cbn [zsum map nsum]; lia).
  destruct (gen_gives h0 (w_gens w) g (zsum zs) Nr K ltac:(lia)) as (vs0 & h2 & Eg & Lg & _). rewrite Hg in Eg. injection Eg as -> ->.
  assert (Ls : map (@length val) (slices (map Z.to_nat zs) vs0) = map Z.to_nat zs) by (apply slices_lengths; lia).
  apply mapr_ok_Forall2 in Hz. set (ls := slices (map Z.to_nat zs) vs0) in *. clearbody ls.
  intros row Hr. destruct (column_row _ _ _ _ A Rd Hf row Hr) as (r0 & v & Hc & _ & Ag & Ev). rewrite (Ag q Hq), Ev. clear - Hz Hnn Ls Hc.
  unfold row_of. revert zs ls Hz Hnn Ls Hc. induction (df_rows d) as [|r1 rows IH]; intros zs ls Hz Hnn Ls Hc; [destruct Hc|].
  cbn [map] in Hz. inversion Hz as [|? z ? zs' Hv Hz']; subst. destruct ls as [|t ls]; [discriminate|]. cbn [map] in Ls. injection Ls as L1 L2. inversion Hnn as [|? ? Hz0 Hnn']; subst.
  cbn [map combine] in Hc. destruct Hc as [[= <- <-]|Hc]; [|exact (IH _ _ Hz' Hnn' L2 Hc)]. exists t. split; [reflexivity|].
  destruct (cell (df_cols d) (snd r1) q) as [| |[[a b] Hq]| |]; try easy. cbn in Hv. destruct b; try easy. injection Hv as ->.
  rewrite L1. unfold vnat, vz. f_equal. apply Qc_is_canon. rewrite Z2Nat.id by easy. unfold Q2Qc, this. rewrite Qred_correct. reflexivity.
Qed.

Lemma VNum_inj a b : VNum a = VNum b -> a = b.
Proof. now intros [= ->]. Qed.
Lemma qnat_inj a b : qnat a = qnat b -> a = b.
Proof.
  unfold qnat. intros H. apply Q2Qc_eq_iff in H. unfold Qeq, inject_Z in H. cbn in H. lia.
Qed.

Section Orders.
  Context (w0 : world) (c : snd_names) (distributors dealers agents : list val).
  Hypothesis F : snd_circus w0 c distributors dealers agents.
  Hypothesis R : snd_ready w0 c distributors dealers agents.
  Notation counter := (n_to_restock c).

  Lemma reviews_apart : ~ attribute_of w0 (n_reviews c) (OAttribute counter).
  Proof.
    intros (po & n & x & Hp & Hx & E). injection E as <-. destruct (ready_reviews _ _ _ _ _ R) as (po' & Hp' & _ & K).
    assert (po' = po) by congruence. subst po'. now destruct (K n counter Hx) as (_ & N & _).
  Qed.
  Definition aside (o : op) : bool := leaves counter o && mute "bulk_purchases" o && mute "distributor_restock" o.
  Lemma aside_apart ops : forallb aside ops = true -> Forall (apart w0 (OAttribute counter) [credits; debits]) ops.
  Proof.
    intros H. apply Forall_forall. intros o Ho. rewrite forallb_forall in H. specialize (H o Ho). unfold aside in H. rewrite !andb_true_iff in H. destruct H as [[H1 H2] H3].
    split; [now apply leaves_changes|]. intros b cols ex [<-|[<-|[]]]; now apply mute_quiet.
  Qed.

  Lemma counter_single : single_valued w0 counter.
  Proof. destruct (ready_to_restock _ _ _ _ _ R) as (t & Ht & N & _). exists t. auto. Qed.
  Lemma widen_any dropping cols o new ops cols' : adds o new -> new_ok cols new [] = true -> dropping = true \/ drops_rows o = false -> widens dropping (cols ++ new) ops cols' -> widens dropping cols (o :: ops) cols'.
  Proof.
    intros A B Dr D. unfold new_ok in B. rewrite !andb_true_iff in B. destruct B as [[B1 B2] _]. rewrite forallb_forall in B2.
    apply (widens_by _ _ _ new); auto.
    - now apply nodupb_NoDup.
    - intros x Hx K. specialize (B2 _ Hx). apply negb_true_iff in B2. apply mem_In in K. congruence.
  Qed.
  Ltac widen_any new := apply (widen_any _ _ _ new); [first [reflexivity|apply add_len|apply add_series]|reflexivity|first [right; reflexivity|left; reflexivity]|cbn [app]].
  Lemma counter_books : account_books w0 counter credits debits.
  Proof.
    split; [discriminate|]. split; [exact counter_single|]. intros a s Es.
    destruct (stories_of _ _ _ _ _ F a s Es) as (Hf & judge & Eo).
    assert (L : a < 6) by (rewrite <- (snd_six _ _ _ _ _ F); apply nth_error_Some; congruence).
    destruct a as [|[|[|[|[|[|a]]]]]]; [| | | | | |lia]; cbn [nth] in Eo.
    - assert (Ef : st_field s = "DISTRIBUTOR_ID"%string) by (destruct Hf as [Hf|[Hf|[Hf|[Hf|[Hf|[Hf|[]]]]]]]; [now injection Hf|discriminate..]).
      apply (one_to_enter _ _ _ _ s (ordering c ++ [receiving c]) (OpAttrAdd counter "DISTRIBUTOR_ID" "SIMS_TO_RESTOCK" true) [] (OpFieldLogger "distributor_restock" restock_columns []) [OpBack 0 judge] debits
        ["DISTRIBUTOR_ID"; "DATETIME"; "SIMS_TO_RESTOCK"; "NEW_SIMS_IDS"]%string [] ["DISTRIBUTOR_ID"; "DATETIME"; "SIMS_TO_RESTOCK"; "NEW_SIMS_IDS"]%string).
      + exact Eo.
      + apply aside_apart. reflexivity.
      + rewrite Ef. unfold ordering, receiving. cbn [app]. widen_any ["DATETIME"%string]. widen_any ["SIMS_TO_RESTOCK"%string]. widen_any ["NEW_SIMS_IDS"%string]. widen_any (@nil string). constructor.
      + apply a_debit.
      + cbn. tauto.
      + intros n [].
      + cbn. tauto.
      + cbn. tauto.
      + cbn [app]. constructor.
      + exists restock_columns. split; [reflexivity|]. right. split; [cbn; tauto|]. split; [cbn; tauto|]. apply incl_check. reflexivity.
    - apply nothing_to_enter. rewrite Eo. apply aside_apart. reflexivity.
    - assert (Ef : st_field s = "DEALER_ID"%string) by (destruct Hf as [Hf|[Hf|[Hf|[Hf|[Hf|[Hf|[]]]]]]]; [discriminate|discriminate|now injection Hf|discriminate..]).
      apply (one_to_enter _ _ _ _ s (choosing c ++ [grabbing c; storing c; OpApply ["SIM_BULK"%string] ["NUMBER_OF_SIMS"%string] map_len]) (OpAttrAdd counter "DISTRIBUTOR" "NUMBER_OF_SIMS" false)
        [OpForce restock "DISTRIBUTOR" None] (OpFieldLogger "bulk_purchases" bulk_columns []) [OpBack 2 judge] credits
        ["DEALER_ID"; "DATETIME"; "DISTRIBUTOR"; "BULK_BUY_SIZE"; "SIM_BULK"; "NUMBER_OF_SIMS"]%string [] ["DEALER_ID"; "DATETIME"; "DISTRIBUTOR"; "BULK_BUY_SIZE"; "SIM_BULK"; "NUMBER_OF_SIMS"]%string).
      + exact Eo.
      + apply aside_apart. reflexivity.
      + rewrite Ef. unfold choosing, grabbing, storing. cbn [app]. widen_any ["DATETIME"%string]. widen_any ["DISTRIBUTOR"%string]. widen_any ["BULK_BUY_SIZE"%string]. widen_any ["SIM_BULK"%string]. widen_any (@nil string).
        widen_any ["NUMBER_OF_SIMS"%string]. constructor.
      + apply a_credit.
      + cbn. tauto.
      + intros n [].
      + cbn. tauto.
      + cbn. tauto.
      + cbn [app]. widen_any (@nil string). constructor.
      + exists bulk_columns. split; [reflexivity|]. right. split; [cbn; tauto|]. split; [cbn; tauto|]. apply incl_check. reflexivity.
    - apply nothing_to_enter. rewrite Eo. apply aside_apart. reflexivity.
    - apply nothing_to_enter. rewrite Eo. apply aside_apart. reflexivity.
    - apply nothing_to_enter. rewrite Eo. unfold snd_reviews. cbn [app]. rewrite Forall_forall. intros o Ho.
      assert (A : Forall (apart w0 (OAttribute counter) [credits; debits]) (firstn 4 (snd_reviews c) ++ [OpFieldLogger "reviews" [] []; OpBack 5 judge])) by (apply aside_apart; reflexivity).
      rewrite Forall_forall in A. destruct Ho as [Ho|[Ho|[Ho|[Ho|[<-|Ho]]]]]; try (apply A; cbn; tauto).
      split; [intros [K|K]; [discriminate|exact (reviews_apart K)]|]. intros b cols ex [<-|[<-|[]]]; now apply mute_quiet.
  Qed.

  Lemma counter_follows hs L w' k x : emits w0 hs L w' -> k <> VNA -> holds w0 counter k (VNum x) ->
    holds w' counter k (VNum (x + bought_from k (records "bulk_purchases" L) - restocked k (records "distributor_restock" L))%Qc).
  Proof. intros H N Hx. rewrite <- credited, <- debited. exact (proj1 (account_ledger _ _ _ _ _ _ _ counter_books H) k x N Hx). Qed.

  (** The number to restock is always a number of SIMs. *)
  Lemma counter_counts hs w' : Forall (sensible w0) hs -> history w0 hs w' -> forall k v, holds w' counter k v -> a_count v.
  Proof.
    intros Hs H k v (t & Ht & Hv). pose proof (snd_well_formed_with _ _ _ _ _ F R) as Wf.
    destruct (history_runs _ _ Wf hs Hs w0 (fine_start _ _ Wf)) as (w1 & H1 & Fi). rewrite (history_det _ _ _ H _ H1) in Ht.
    exact (fi_kinds _ _ _ Fi _ _ _ _ Ht Hv (or_introl eq_refl)).
  Qed.

  Lemma counter_reconciled hs L w' : emits w0 hs L w' -> single_valued w' counter.
  Proof.
    intros H. destruct counter_books as (Nd & Sv & Kb).
    assert (Nd2 : NoDup (map log_of [credits; debits])) by (apply nodupb_NoDup; reflexivity).
    assert (B : reconciled counter credits debits w0 L w').
    { refine (emits_entered w0 (OAttribute counter) [credits; debits] (posting counter credits debits) (posting_adds counter credits debits) Nd2 Kb _
        (reconciled counter credits debits) (reconciled_same counter credits debits) (reconciled_trans counter credits debits) (reconciled_ext counter credits debits)
        _ hs w0 L w' (books_inv_start w0) H); [right; eauto|]. intros v l v'. now apply reconciled_once. }
    exact (proj1 (B Sv)).
  Qed.

  (** ** What a restock does *)
  Notation distributed := (n_distro_sims c).
  Lemma restock_more w l w' : since w0 w -> execute restock w = (Ok l, w') ->
    exists s rows, nth_error (w_stories w) restock = Some s /\ Forall2 (shows restock_columns) rows (records "distributor_restock" l) /\
      map (fun row : record => row "DISTRIBUTOR_ID"%string) rows = due_members s /\
      Forall (fun row : record => exists ts, row "NEW_SIMS_IDS"%string = VList ts /\ row "SIMS_TO_RESTOCK"%string = vnat (length ts)) rows /\
      Permutation (pairs_of w' distributed) (pairs_of w distributed ++ unpacked (map (fun row : record => (row "DISTRIBUTOR_ID", row "NEW_SIMS_IDS")%string) rows)).
  Proof.
    intros S H. destruct (snd_story_restock _ _ _ _ _ F) as (s0 & Es0 & Ef & _ & judge & Eo).
    unshelve epose proof (exec_parts w0 restock s0 (receiving c) "distributor_restock" restock_columns (ordering c) (settling c) [OpBack restock judge]
      ["DISTRIBUTOR_ID"; "DATETIME"; "SIMS_TO_RESTOCK"; "NEW_SIMS_IDS"]%string [] ["DISTRIBUTOR_ID"; "DATETIME"; "SIMS_TO_RESTOCK"; "NEW_SIMS_IDS"]%string
      Es0 _ _ _ _ _ _ _ w l w' S H) as (s & Es & Efs & K).
    - exact Eo.
    - rewrite Ef. unfold ordering. build_snd ["DATETIME"]%string. build_snd ["SIMS_TO_RESTOCK"]%string. build_snd ["NEW_SIMS_IDS"]%string. apply built_up.
    - unfold receiving, settling. build_snd (@nil string). build_snd (@nil string). apply built_up.
    - unfold settling. cbn [app]. widen_snd (@nil string). constructor.
    - split; [reflexivity|]. split; [constructor|]. intros n [].
    - right. split; [apply incl_check; reflexivity|discriminate].
    - apply Forall_forall. apply forallb_forall. reflexivity.
    - rewrite Ef in Efs.
      destruct K as [(K & Kr & _ & Kd)|(d1 & d2 & d3 & d5 & v1 & v2 & v3 & v5 & [(l1 & R1) (l2 & R2) (l3 & l3' & R3) (l4 & R4) (Kr & _) [C1 Rd1] [C2 Rd2] [C3 Rd3] Rows1 Rows Cols Sh])].
      { exists s, []. rewrite K, Kd. split; [exact Es|]. split; [constructor|]. split; [reflexivity|]. split; [constructor|]. unfold pairs_of. rewrite Kr. cbn [map unpacked flat_map]. rewrite !app_nil_r. apply Permutation_refl. }
      exists s, (map (row_of d3) (df_rows d3)). split; [exact Es|]. split; [exact Sh|].
      destruct (side_effect_data (receiving c) _ _ _ _ _ eq_refl R2) as [-> _]. cbn [app] in Cols.
      assert (Col : forall n, map (fun row : record => row n) (map (row_of d3) (df_rows d3)) = column_of d3 n) by (intros n; rewrite map_map; reflexivity).
      assert (Hw : column_of d1 "DISTRIBUTOR_ID" = due_members s).
      { assert (Wd : widens false ["DISTRIBUTOR_ID"%string] (ordering c) ["DISTRIBUTOR_ID"; "DATETIME"; "SIMS_TO_RESTOCK"; "NEW_SIMS_IDS"]%string).
        { unfold ordering. widen_snd ["DATETIME"]%string. widen_snd ["SIMS_TO_RESTOCK"]%string. widen_snd ["NEW_SIMS_IDS"]%string. constructor. }
        rewrite Efs in R1. destruct (widens_list _ _ _ _ Wd (init_story_data "DISTRIBUTOR_ID" (due_members s)) _ _ _ _ _ eq_refl (init_rect _ _) R1) as (_ & _ & Kc).
        rewrite (proj2 (Kc eq_refl "DISTRIBUTOR_ID"%string (or_introl eq_refl))). unfold column_of, init_story_data. cbn [df_rows df_cols]. rewrite map_map. cbn. now rewrite map_id. }
      split; [rewrite Col, Cols, Hw by (cbn; tauto); reflexivity|]. split.
      + assert (G : Forall2 (fun q v => exists ts, v = VList ts /\ q = vnat (length ts)) (column_of d1 "SIMS_TO_RESTOCK") (column_of d1 "NEW_SIMS_IDS")).
        { change (ordering c) with (firstn 2 (ordering c) ++ [OpGenerate (n_sim_ids c) "NEW_SIMS_IDS" (Some "SIMS_TO_RESTOCK"%string)]) in R1. rewrite run_list_app in R1. apply bindM_ok in R1 as ([e l0] & u & Ra & Rb).
          apply run_list_step in Rb as (e' & l0' & u' & all & Rg & _ & Rn). cbn [run_list] in Rn. injection Rn as -> _ _.
          assert (B2 : builds_up [st_field s] (firstn 2 (ordering c)) ["DISTRIBUTOR_ID"; "DATETIME"; "SIMS_TO_RESTOCK"]%string).
          { rewrite Efs. unfold ordering. cbn [firstn]. build_snd ["DATETIME"]%string. build_snd ["SIMS_TO_RESTOCK"]%string. apply built_up. }
          assert (Hd0 : data_after w s [] [st_field s] (init_story_data (st_field s) (due_members s))).
          { split; [reflexivity|]. split; [now left|]. split; [apply init_rect|]. split; [constructor|]. intros row Hin. split; [intros e0 o' lt E; destruct e0; discriminate|].
            cbn [init_story_data df_rows] in Hin. apply in_map_iff in Hin as (i & <- & Hi). unfold row_of. cbn [snd df_cols init_story_data]. cbn [cell]. now rewrite String.eqb_refl. }
          assert (Hh0 : held_after w [] (unforced restock s w)) by (apply unforced_held; [apply held_start; exact (sc_reach _ _ S)|exact Es]).
          destruct (rows_now w s _ _ _ B2 [] _ _ (unforced restock s w) _ _ _ Hd0 Hh0 eq_refl Ra) as (De & He & _). destruct De as (Ce & _ & Re & _).
          pose proof (generated_lengths (w_gens w0) (n_sim_ids c) "NEW_SIMS_IDS" "SIMS_TO_RESTOCK" e u d1 _ _ (gens_kept_trans _ _ _ (sc_gens _ _ S) (hd_gens _ _ _ _ He)) (proj1 (proj2 (snd_sims _ _ _ _ _ F))) Re ltac:(rewrite Ce; cbn; intuition discriminate) ltac:(rewrite Ce; cbn; tauto) Rg) as G.
          unfold column_of, row_of in *. clear - G. induction (df_rows d1) as [|r rs IH]; [constructor|]. constructor; [apply G; now left|]. apply IH. intros row Hr. apply G. now right. }
        rewrite <- !Cols, <- !Col in G by (cbn; tauto). clear - G. induction (map (row_of d3) (df_rows d3)) as [|r rs IH]; [constructor|]. cbn [map] in G. inversion G; subst. constructor; auto.
      + destruct (rel_then _ _ _ _ _ F distributed w ltac:(cbn; tauto) S) as (rel & Er & Hreach).
        assert (X1 : nth_error (w_rels v1) distributed = nth_error (w_rels w) distributed) by exact (list_avoids distributed (ordering c) _ _ _ _ _ _ eq_refl R1).
        assert (X3 : nth_error (w_rels v3) distributed = nth_error (w_rels v2) distributed) by exact (list_avoids distributed (settling c) _ _ _ _ _ _ eq_refl R3).
        assert (X5 : nth_error (w_rels v5) distributed = nth_error (w_rels v3) distributed) by exact (list_avoids distributed [OpBack restock judge] _ _ _ _ _ _ eq_refl R4).
        assert (X' : pairs_of w' distributed = pairs_of v2 distributed) by (unfold pairs_of; now rewrite Kr, X5, X3).
        rewrite X'. rewrite <- X1 in Er. rewrite <- listed_rows. rewrite (listed_columns d3), (Cols "DISTRIBUTOR_ID"%string), (Cols "NEW_SIMS_IDS"%string), <- listed_columns by (cbn; tauto).
        rewrite <- (pairs_same_rel _ _ _ X1). exact (bulk_pairs _ _ _ _ _ _ _ _ _ R2 Er Hreach).
  Qed.

  Lemma shown_same k rows rs : Forall2 (shows restock_columns) rows rs -> Forall (fun row : record => exists ts, row "NEW_SIMS_IDS"%string = VList ts /\ row "SIMS_TO_RESTOCK"%string = vnat (length ts)) rows ->
    restocked k rs = qnat (length (about k (unpacked (map (fun row : record => (row "DISTRIBUTOR_ID", row "NEW_SIMS_IDS")%string) rows)))).
  Proof.
    induction 1 as [|row r rows rs S1 _ IH]; intros Fl; [reflexivity|]. inversion Fl as [|? ? (ts & E1 & E2) Fl']; subst. specialize (IH Fl').
    unfold restocked, sum_shown, of_whom in *. cbn [map filter unpacked flat_map fst snd]. rewrite E1. cbn [list_of]. fold (unpacked (map (fun row : record => (row "DISTRIBUTOR_ID", row "NEW_SIMS_IDS")%string) rows)).
    rewrite about_app, app_length, qnat_add, <- IH, about_pairs. rewrite (S1 "DISTRIBUTOR_ID"%string) by (cbn; tauto).
    destruct (val_eqb (row "DISTRIBUTOR_ID"%string) k); cbn [map SpecCdrLogs.total].
    - rewrite (S1 "SIMS_TO_RESTOCK"%string), E2 by (cbn; tauto). unfold vnat, vz, qnat. ring.
    - unfold qnat. change (Q2Qc (inject_Z (Z.of_nat 0))) with 0%Qc. ring.
  Qed.
  Lemma one_of k (rows : list record) n : NoDup (map (fun row : record => row n) rows) -> In k (map (fun row : record => row n) rows) -> exists row, In row rows /\ row n = k /\ of_whom n k rows = [row].
  Proof.
    intros Nd Hk. apply in_map_iff in Hk as (row & Ek & Hr). exists row. split; [exact Hr|]. split; [exact Ek|]. unfold of_whom.
    induction rows as [|r rows IH]; [destruct Hr|]. cbn [map] in Nd. inversion Nd as [|? ? Hn Nd']; subst. cbn [filter]. destruct Hr as [->|Hr].
    - change val_eqb with (@keqb val _). rewrite keqb_refl. f_equal. assert (K : forall x : record, In x rows -> keqb (x n) (row n) = false).
      { intros x Hx. destruct (keqb_spec (x n) (row n)) as [E|]; [|reflexivity]. exfalso. apply Hn. rewrite <- E. now apply (in_map (fun r : record => r n)). }
      clear - K. induction rows as [|x rows IH]; [reflexivity|]. cbn [filter]. rewrite (K x) by now left. apply IH. intros y Hy. apply K. now right.
    - change val_eqb with (@keqb val _). destruct (keqb_spec (r n) (row n)) as [E|]; [|exact (IH Nd' Hr)]. exfalso. apply Hn. rewrite E. now apply (in_map (fun r : record => r n)).
  Qed.

  Lemma restock_settles past L1 w1 l w2 k : NoDup distributors -> ~ In VNA distributors -> emits w0 past L1 w1 -> execute restock w1 = (Ok l, w2) -> acts_now w1 restock k ->
    exists r n, of_whom "DISTRIBUTOR_ID" k (records "distributor_restock" l) = [r] /\ r "SIMS_TO_RESTOCK"%string = vnat n /\ holds w1 counter k (vnat n) /\ holds w2 counter k (vnat 0) /\
      length (items w2 distributed k) = length (items w1 distributed k) + n.
  Proof.
    intros Nd Hna He Hx (s & Es & Hk). pose proof (emits_since _ _ _ _ _ (start_since _ _ _ _ _ F) He) as S.
    destruct (restock_more _ _ _ S Hx) as (s' & rows & Es' & Sh & Hm & Gen & P). assert (s' = s) by congruence. subst s'.
    destruct (snd_story_restock _ _ _ _ _ F) as (s0 & Es0 & _ & Ei & _). destruct (story_then w0 w1 restock S s Es) as (s1 & Es1 & T). assert (s1 = s0) by congruence. subst s1.
    destruct T as (_ & _ & _ & _ & _ & _ & _ & _ & Ti).
    assert (Kd : In k distributors).
    { rewrite <- Ei, <- Ti. unfold due_members in Hk. apply in_map_iff in Hk as (x & <- & Hk). apply filter_In in Hk as [Hk _]. now apply in_map. }
    assert (Ndue : NoDup (due_members s)) by (apply NoDup_due; rewrite Ti, Ei; exact Nd).
    assert (Er : map (fun r : record => r "DISTRIBUTOR_ID"%string) (records "distributor_restock" l) = due_members s).
    { rewrite <- Hm. clear - Sh. induction Sh as [|row r rows rs S1 _ IH]; [reflexivity|]. cbn [map]. rewrite IH, (S1 "DISTRIBUTOR_ID"%string) by (cbn; tauto). reflexivity. }
    destruct (one_of k (records "distributor_restock" l) "DISTRIBUTOR_ID") as (r & Hr & Ek & Ow); [now rewrite Er|now rewrite Er|].
    destruct (shown_in _ _ _ _ Sh Hr) as (row & Hin & S1). rewrite Forall_forall in Gen. destruct (Gen _ Hin) as (ts & Et & En). rewrite <- (S1 "SIMS_TO_RESTOCK"%string) in En by (cbn; tauto).
    exists r, (length ts). split; [exact Ow|]. split; [exact En|].
    assert (M : as_many w0 w1) by exact (emits_many _ _ _ _ He).
    pose proof (restock_true _ _ _ _ _ F _ _ _ S M Hx) as Tr. rewrite Forall_forall in Tr. destruct (Tr _ Hr) as (_ & (t & Ett & Lu) & _). rewrite Ek, En in Lu.
    assert (Hh : holds w1 counter k (vnat (length ts))).
    { exists t. split; [exact Ett|]. unfold looked_up in Lu. destruct k; try (now apply dget_In). exfalso. apply (ready_plain _ _ _ _ _ R l0). apply in_or_app. now left. }
    split; [exact Hh|]. assert (Nk : k <> VNA) by congruence.
    assert (Rt : restocked k (records "distributor_restock" l) = qnat (length ts)).
    { unfold restocked, sum_shown. rewrite Ow. cbn [map SpecCdrLogs.total]. rewrite En. unfold vnat, vz, qnat. ring. }
    split.
    - destruct (ready_to_restock _ _ _ _ _ R) as (t0 & Et0 & Nd0 & Inc & Cnt). destruct (in_map_iff fst t0 k) as [X _]. destruct (X (Inc _ Kd)) as ([k' v] & E & Hv). cbn in E. subst k'.
      destruct (Cnt _ _ Hv) as (m & ->). assert (H0 : holds w0 counter k (VNum (qnat m))) by (exists t0; split; [exact Et0|exact Hv]).
      pose proof (counter_follows _ _ _ _ _ He Nk H0) as H1. pose proof (counter_follows _ _ _ _ _ (emits_snoc _ _ _ _ _ _ _ He Hx) Nk H0) as H2.
      assert (Eq : VNum (qnat m + bought_from k (records "bulk_purchases" L1) - restocked k (records "distributor_restock" L1))%Qc = vnat (length ts)).
      { destruct (counter_reconciled _ _ _ He) as (t' & Et' & Ndt). destruct H1 as (ta & Ea & Ha), Hh as (tb & Eb & Hb). assert (ta = t') by congruence. assert (tb = t') by congruence. subst ta tb.
        apply (In_dget _ _ _ Ndt) in Ha, Hb. congruence. }
      rewrite !records_app in H2. assert (Sb : records "bulk_purchases" l = []) by exact (silent _ "bulk_purchases" _ _ _ _ _ _ _ (snd_story_restock _ _ _ _ _ F) eq_refl S Hx).
      rewrite Sb, app_nil_r in H2. 
      assert (Ra : restocked k (records "distributor_restock" L1 ++ records "distributor_restock" l) = (restocked k (records "distributor_restock" L1) + qnat (length ts))%Qc).
      { rewrite <- Rt. unfold restocked, sum_shown, of_whom. rewrite (filter_app (A := record)), map_app. generalize (map (fun r : record => r "SIMS_TO_RESTOCK"%string) (filter (fun r : record => val_eqb (r "DISTRIBUTOR_ID"%string) k) (records "distributor_restock" L1))).
        intros a. induction a as [|v a IH]; cbn [app SpecCdrLogs.total]; [ring|]. destruct v; rewrite ?IH; ring. }
      rewrite Ra in H2. replace (vnat 0) with (VNum (qnat m + bought_from k (records "bulk_purchases" L1) - (restocked k (records "distributor_restock" L1) + qnat (length ts)))%Qc); [exact H2|].
      apply VNum_inj in Eq. change (Q2Qc (inject_Z (Z.of_nat (length ts)))) with (qnat (length ts)) in Eq. change (vnat 0) with (VNum 0%Qc). apply f_equal. transitivity (qnat (length ts) - qnat (length ts))%Qc; [rewrite <- Eq at 1; ring|ring].
    - rewrite !items_length, (about_perm k _ _ P), about_app, app_length. f_equal. apply qnat_inj. rewrite <- Rt. symmetry. apply shown_same; [exact Sh|now apply Forall_forall].
  Qed.

  (** A distributor from whom a dealer is logged to have bought restocks at the next execution of the restocks. *)
  Lemma order_forces w1 l w2 r k h : since w0 w1 -> distinct_members w1 -> execute bulk_purchases w1 = (Ok l, w2) ->
    In r (records "bulk_purchases" l) -> r "DISTRIBUTOR"%string = k -> k <> VNA -> executions restock h = 0 -> acts_now (after w2 h) restock k.
  Proof.
    intros S D H Hr Ek Nk Nh. destruct (snd_story_bulk _ _ _ _ _ F) as (s0 & Es0 & Ef & _ & judge & Eo).
    set (before := choosing c ++ [grabbing c; storing c; OpApply ["SIM_BULK"%string] ["NUMBER_OF_SIMS"%string] map_len; OpAttrAdd counter "DISTRIBUTOR" "NUMBER_OF_SIMS" false]).
    unshelve epose proof (exec_parts w0 bulk_purchases s0 (OpForce restock "DISTRIBUTOR" None) "bulk_purchases" bulk_columns before [] [OpBack bulk_purchases judge]
      ["DEALER_ID"; "DATETIME"; "DISTRIBUTOR"; "BULK_BUY_SIZE"; "SIM_BULK"; "NUMBER_OF_SIMS"]%string [] ["DEALER_ID"; "DATETIME"; "DISTRIBUTOR"; "BULK_BUY_SIZE"; "SIM_BULK"; "NUMBER_OF_SIMS"]%string
      Es0 _ _ _ _ _ _ _ w1 l w2 S H) as (s & Es & Efs & K).
    - exact Eo.
    - rewrite Ef. unfold before, choosing, grabbing, storing. cbn [app]. build_snd ["DATETIME"]%string. build_snd ["DISTRIBUTOR"]%string. build_snd ["BULK_BUY_SIZE"]%string. build_snd ["SIM_BULK"]%string. build_snd (@nil string).
      build_snd ["NUMBER_OF_SIMS"]%string. build_snd (@nil string). apply built_up.
    - build_snd (@nil string). apply built_up.
    - constructor.
    - split; [reflexivity|]. split; [constructor|]. intros n [].
    - right. split; [apply incl_check; reflexivity|discriminate].
    - apply Forall_forall. apply forallb_forall. reflexivity.
    - destruct K as [(K & _)|(d1 & d2 & d3 & d5 & v1 & v2 & v3 & v5 & [(l1 & R1) (l2 & R2) (l3 & l3' & R3) _ _ _ _ _ Rows1 _ _ Sh])]; [rewrite K in Hr; destruct Hr|].
      destruct (shown_in _ _ _ _ Sh Hr) as (row & Hin & S1). cbn [run_list] in R3. injection R3 as <- _ _.
      destruct (side_effect_data (OpForce restock "DISTRIBUTOR" None) _ _ _ _ _ eq_refl R2) as [-> _]. apply in_map_iff in Hin as (r0 & <- & Hin).
      destruct (story_then w0 w1 bulk_purchases S s Es) as (s1 & Es1 & T). assert (s1 = s0) by congruence. subst s1. destruct T as (_ & _ & _ & _ & _ & _ & _ & To & _).
      refine (op_force bulk_purchases restock w1 l w2 s before "DISTRIBUTOR" None (OpFieldLogger "bulk_purchases" bulk_columns [] :: [OpBack bulk_purchases judge]) d1 l1 v1 k r0 h H D Es _ _ _ Hin _ Nk I Nh).
      + intros E. pose proof (proj2 (Rows1 _ Hin)) as Hd. rewrite E in Hd. destruct Hd.
      + rewrite To. exact Eo.
      + rewrite (at_start_unforced _ _ _ Es). exact R1.
      + change (row_of d1 r0 "DISTRIBUTOR"%string = k). rewrite <- Ek. symmetry. apply S1. cbn. tauto.
  Qed.
End Orders.
