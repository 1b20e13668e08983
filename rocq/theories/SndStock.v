(** The stocks of the distributors of tests/scenarios/test_snd.py. *)
From Verif Require Import Base BaseFacts Rng Utils UtilsFacts Relationship RelationshipFacts SpecRelationship Frame Gens Clock SpecClock Attribute SpecAttribute AttributeFacts World Story Ops OpsFacts Helpers
  Circus SpecStory StoryFacts StoryProps StoryExec SpecOps OpsProps OpsColumns OpsMore SpecCircus SpecPopulation SpecLocal LocalFacts SpecSupply SpecLedger LedgerProps SpecRecords RecordsProps SpecNow NowProps SpecJournal
  RowsProps SpecSafe GensKept GensProps RecordsGens SafeGens SafeOps SafeRun GeographyLog Geography Cdr SpecCdr CdrFacts SpecCdrLogs CdrLogs CdrBooks OpRows Snd SpecSnd SpecSndReady WorldProps CdrProps SupplyFacts SndBooks SndTruth SndSafe SupplyProps StoryMore StoryForce SpecSndRestock SndRestock SafeFacts OpEach SpecSndStock.
From Coq Require Import Permutation Sorted.

Lemma total_app (a b : list val) : SpecCdrLogs.total (a ++ b) = (SpecCdrLogs.total a + SpecCdrLogs.total b)%Qc.
Proof. induction a as [|v a IH]; cbn [app SpecCdrLogs.total]; [ring|]. destruct v; rewrite ?IH; ring. Qed.
Lemma bought_app k a b : bought_from k (a ++ b) = (bought_from k a + bought_from k b)%Qc.
Proof. unfold bought_from, sum_shown, of_whom. now rewrite (filter_app (A := record)), map_app, total_app. Qed.
Lemma restocked_app k a b : restocked k (a ++ b) = (restocked k a + restocked k b)%Qc.
Proof. unfold restocked, sum_shown, of_whom. now rewrite (filter_app (A := record)), map_app, total_app. Qed.

Lemma bought_shown k rows rs : Forall2 (shows bulk_columns) rows rs -> Forall (fun row : record => exists ts, row "SIM_BULK"%string = VList ts /\ row "NUMBER_OF_SIMS"%string = vnat (length ts)) rows ->
  bought_from k rs = qnat (length (about k (unpacked (map (fun row : record => (row "DISTRIBUTOR", row "SIM_BULK")%string) rows)))).
Proof.
  induction 1 as [|row r rows rs S1 _ IH]; intros Fl; [reflexivity|]. inversion Fl as [|? ? (ts & E1 & E2) Fl']; subst. specialize (IH Fl').
  assert (X1 : r "DISTRIBUTOR"%string = row "DISTRIBUTOR"%string) by (apply S1; cbn; tauto). assert (X2 : r "NUMBER_OF_SIMS"%string = row "NUMBER_OF_SIMS"%string) by (apply S1; cbn; tauto).
  unfold bought_from, of_whom, unpacked, sum_shown in *. cbn [filter map flat_map fst snd]. rewrite X1, about_app, app_length, qnat_add, E1. cbn [list_of]. rewrite about_pairs, <- IH.
  destruct (val_eqb (row "DISTRIBUTOR"%string) k); [|change (qnat 0) with 0%Qc; ring]. cbn [map SpecCdrLogs.total]. rewrite X2, E2. reflexivity.
Qed.

(** What one of the pairs of each member adds up to. *)
Lemma about_served k served pairs : incl served pairs -> NoDup (map fst served) ->
  length (about k (unpacked served)) <= length (about k (unpacked pairs)).
Proof.
  intros I Nd.
  assert (Z : forall l : list (val * val), ~ In k (map fst l) -> about k (unpacked l) = []).
  { induction l as [|[f v] l IH]; intros Hn; [reflexivity|]. unfold unpacked in *. cbn [flat_map fst snd map In] in *. rewrite about_app, IH by tauto. rewrite app_nil_r. 
    assert (E : length (about k (map (pair f) (list_of v))) = 0). { rewrite about_pairs. change val_eqb with (@keqb val _). destruct (keqb_spec f k); [exfalso; auto|reflexivity]. }
    now destruct (about k (map (pair f) (list_of v))). }
  destruct (mem k (map fst served)) eqn:Em; [|apply mem_not_In in Em; rewrite (Z _ Em); cbn; lia].
  apply mem_In in Em. apply in_map_iff in Em as ([k' v] & E & Hin). cbn in E. subst k'.
  assert (X : length (about k (unpacked served)) = length (list_of v)).
  { apply in_split in Hin as (a & b & ->). rewrite map_app in Nd. cbn [map fst] in Nd. apply NoDup_remove_2 in Nd.
    assert (U : unpacked (a ++ (k, v) :: b) = unpacked a ++ map (pair k) (list_of v) ++ unpacked b) by (unfold unpacked; rewrite flat_map_app; reflexivity).
    rewrite U, !about_app, !app_length, about_pairs. change val_eqb with (@keqb val _). rewrite keqb_refl.
    rewrite (Z a), (Z b); [cbn; lia|intros C; apply Nd; apply in_or_app; now right|intros C; apply Nd; apply in_or_app; now left]. }
  rewrite X. apply I in Hin. apply in_split in Hin as (a & b & ->).
  assert (U : unpacked (a ++ (k, v) :: b) = unpacked a ++ map (pair k) (list_of v) ++ unpacked b) by (unfold unpacked; rewrite flat_map_app; reflexivity).
  rewrite U, !about_app, !app_length, about_pairs. change val_eqb with (@keqb val _). rewrite keqb_refl. lia.
Qed.
Lemma about_one k served pairs : incl served pairs -> NoDup (map fst served) -> (forall x, In x pairs -> list_of (snd x) <> [] -> In (fst x) (map fst served)) ->
  length (filter (fun x => val_eqb (fst x) k) pairs) <= 1 ->
  length (about k (unpacked served)) = length (about k (unpacked pairs)).
Proof.
  intros I Nd Al One.
  assert (Ab : forall l : list (val * val), about k (unpacked l) = unpacked (filter (fun x => val_eqb (fst x) k) l)).
  { induction l as [|[f v] l IH]; [reflexivity|]. unfold unpacked in *. cbn [flat_map filter fst snd]. rewrite about_app, IH. destruct (val_eqb f k) eqn:E; cbn [flat_map fst snd].
    - f_equal. clear - E. induction (list_of v) as [|t ts IH]; [reflexivity|]. cbn [map about filter fst]. rewrite E. f_equal. exact IH.
    - assert (Z : about k (map (pair f) (list_of v)) = []). { clear - E. induction (list_of v) as [|t ts IH]; [reflexivity|]. cbn [map about filter fst]. rewrite E. exact IH. } now rewrite Z. }
  apply Nat.le_antisymm; [now apply about_served|]. rewrite (Ab pairs).
  destruct (filter (fun x => val_eqb (fst x) k) pairs) as [|[f v] rest] eqn:Ef; [cbn; lia|]. destruct rest; [|cbn in One; lia].
  assert (Hx : In (f, v) pairs /\ val_eqb f k = true) by (apply (filter_In (fun x => val_eqb (fst x) k)); rewrite Ef; now left). destruct Hx as [Hx Hk]. apply val_eqb_eq in Hk. subst f.
  unfold unpacked at 1. cbn [flat_map fst snd]. rewrite app_nil_r, map_length. destruct (list_of v) as [|t ts] eqn:Ev; [cbn; lia|].
  pose proof (Al _ Hx ltac:(cbn [snd]; rewrite Ev; discriminate)) as Hs. cbn [fst] in Hs. apply in_map_iff in Hs as ([k' v'] & E & Hs). cbn in E. subst k'.
  assert (v' = v).
  { pose proof (I _ Hs) as Hp. assert (Hf : In (k, v') (filter (fun x => val_eqb (fst x) k) pairs)) by (apply filter_In; split; [exact Hp|]; cbn; change val_eqb with (@keqb val _); apply keqb_refl).
    rewrite Ef in Hf. destruct Hf as [Hf|[]]. congruence. }
  subst v'. apply in_split in Hs as (a & b & ->).
  assert (U : unpacked (a ++ (k, v) :: b) = unpacked a ++ map (pair k) (list_of v) ++ unpacked b) by (unfold unpacked; rewrite flat_map_app; reflexivity).
  rewrite U, !about_app, !app_length, about_pairs. change val_eqb with (@keqb val _). rewrite keqb_refl, Ev. lia.
Qed.

(** Operations do not repeat rows. *)
Lemma op_distinct o new d w d' l w' n : adds o new -> run_op o d w = (Ok (d', l), w') -> rectangular d -> NoDup new -> (forall c, In c new -> ~ In c (df_cols d)) ->
  In n (df_cols d) -> NoDup (column_of d n) -> NoDup (column_of d' n).
Proof.
  intros A H Rd Nn Hf Hn Nd. destruct (other_restricts _ _ _ _ _ _ _ A H Rd Nn Hf) as (_ & kept & (Sb & _ & Hk) & _). rewrite (proj2 (Hk n Hn)).
  refine (sublist_NoDup_map _ _ _ Sb _). exact Nd.
Qed.
Lemma list_distinct dropping cols ops cols' n : widens dropping cols ops cols' -> In n cols -> forall d l0 w d' l w',
  df_cols d = cols -> rectangular d -> NoDup (column_of d n) -> run_list run_op ops d l0 w = (Ok (d', l), w') -> NoDup (column_of d' n).
Proof.
  induction 1 as [cols|cols o new ops cols' A Nn Hf Hd _ IH]; intros Hn d l0 w d' l w' Hc Rd Nd H.
  - cbn [run_list] in H. injection H as <- <- <-. exact Nd.
  - apply run_list_step in H as (d1 & l1 & w1 & all & H1 & M & H). subst cols.
    destruct (other_restricts _ _ _ _ _ _ _ A H1 Rd Nn Hf) as (Hc1 & kept & (_ & Rd1 & _) & _).
    refine (IH _ _ _ _ _ _ _ Hc1 Rd1 _ H); [apply in_or_app; now left|]. exact (op_distinct _ _ _ _ _ _ _ _ A H1 Rd Nn Hf Hn Nd).
Qed.

Ltac widen_any new := refine (widens_by true _ _ new _ _ _ _ _ (or_introl eq_refl) _); [reflexivity|apply one_nodup|let n := fresh in let K := fresh in intros n K; destruct K as [<-|[]]; apply mem_not_In; reflexivity|cbn [app]].

Section Stocks.
  Context (w0 : world) (c : snd_names) (distributors dealers agents : list val).
  Hypothesis F : snd_circus w0 c distributors dealers agents.
  Notation distributed := (n_distro_sims c).
  Ltac apart i j := let H := fresh in pose proof (different _ _ _ _ _ F i j ltac:(lia) ltac:(lia) ltac:(lia)) as H; cbn [nth] in H; cbv zeta in H; rewrite H; clear H.

  Lemma grab_more w l w' : since w0 w -> execute bulk_purchases w = (Ok l, w') ->
    exists s rows gone served, nth_error (w_stories w) bulk_purchases = Some s /\ st_field s = "DEALER_ID"%string /\ Forall2 (shows bulk_columns) rows (records "bulk_purchases" l) /\
      Forall (row_now w s (choosing c ++ grabbing c :: storing c :: reporting c)) rows /\
      (NoDup dealers -> NoDup (map (fun row : record => row "DEALER_ID"%string) rows)) /\
      let taken := map (fun row : record => (row "DISTRIBUTOR", row "SIM_BULK")%string) rows in
      Permutation (pairs_of w distributed) (pairs_of w' distributed ++ gone) /\ Permutation gone (unpacked served) /\
      incl served taken /\ NoDup (map fst served) /\ (forall x, In x taken -> list_of (snd x) <> [] -> In (fst x) (map fst served)).
  Proof.
    intros S H. destruct (snd_story_bulk _ _ _ _ _ F) as (s0 & Es0 & Ef & Ei & judge & Eo).
    unshelve epose proof (exec_parts w0 bulk_purchases s0 (grabbing c) "bulk_purchases" bulk_columns (choosing c) (storing c :: reporting c) [OpBack bulk_purchases judge]
      ["DEALER_ID"; "DATETIME"; "DISTRIBUTOR"; "BULK_BUY_SIZE"]%string ["SIM_BULK"%string] ["DEALER_ID"; "DATETIME"; "DISTRIBUTOR"; "BULK_BUY_SIZE"; "SIM_BULK"; "NUMBER_OF_SIMS"]%string
      Es0 _ _ _ _ _ _ _ w l w' S H) as (s & Es & Efs & K).
    - exact Eo.
    - rewrite Ef. unfold choosing, grabbing. cbn [app]. build_snd ["DATETIME"]%string. build_snd ["DISTRIBUTOR"]%string. build_snd ["BULK_BUY_SIZE"]%string. apply built_up.
    - unfold grabbing, storing, reporting. build_snd ["SIM_BULK"]%string. build_snd (@nil string). build_snd ["NUMBER_OF_SIMS"]%string. build_snd (@nil string). build_snd (@nil string). apply built_up.
    - unfold storing, reporting. cbn [app]. widen_snd (@nil string). widen_snd ["NUMBER_OF_SIMS"]%string. widen_snd (@nil string). widen_snd (@nil string). constructor.
    - split; [reflexivity|]. split; [apply one_nodup|]. intros n [<-|[]]. apply mem_not_In. reflexivity.
    - right. split; [apply incl_check; reflexivity|discriminate].
    - apply Forall_forall. apply forallb_forall. reflexivity.
    - rewrite Ef in Efs.
      destruct K as [(K & Kr & _)|(d1 & d2 & d3 & d5 & v1 & v2 & v3 & v5 & [(l1 & R1) (l2 & R2) (l3 & l3' & R3) (l4 & R4) (Kr & _) [C1 Rd1] [C2 Rd2] [C3 Rd3] Rows1 Rows Cols Sh])].
      { exists s, [], [], []. rewrite K. split; [exact Es|]. split; [exact Efs|]. split; [constructor|]. split; [constructor|]. split; [constructor|]. cbv zeta. unfold pairs_of. rewrite Kr, app_nil_r. cbn [map].
        split; [apply Permutation_refl|]. split; [apply Permutation_refl|]. split; [apply incl_refl|]. split; [constructor|]. intros x []. }
      destruct (rel_then _ _ _ _ _ F distributed w ltac:(cbn; tauto) S) as (rel & Er & Hreach).
      assert (X1 : nth_error (w_rels v1) distributed = nth_error (w_rels w) distributed) by exact (list_avoids distributed (choosing c) _ _ _ _ _ _ ltac:(cbn -[Nat.eqb]; apart 4 0; reflexivity) R1).
      assert (X3 : nth_error (w_rels v3) distributed = nth_error (w_rels v2) distributed) by exact (list_avoids distributed (storing c :: reporting c) _ _ _ _ _ _ ltac:(cbn -[Nat.eqb]; apart 1 0; reflexivity) R3).
      assert (X5 : nth_error (w_rels v5) distributed = nth_error (w_rels v3) distributed) by exact (list_avoids distributed [OpBack bulk_purchases judge] _ _ _ _ _ _ eq_refl R4).
      assert (X' : pairs_of w' distributed = pairs_of v2 distributed) by (unfold pairs_of; now rewrite Kr, X5, X3).
      rewrite <- X1 in Er.
      destruct (taken_each _ _ _ _ _ _ _ _ _ _ _ R2 Er Hreach) as (gone & served & P1 & P2 & I & Nd & Al); [rewrite C1; apply mem_not_In; reflexivity|exact Rd1|rewrite C1; cbn; tauto|].
      exists s, (map (row_of d3) (df_rows d3)), gone, served. split; [exact Es|]. split; [exact Efs|]. split; [exact Sh|]. split; [apply Forall_forall; intros row Hr; apply in_map_iff in Hr as (r0 & <- & Hr); exact (Rows _ Hr)|].
      assert (El : map (fun row : record => (row "DISTRIBUTOR", row "SIM_BULK")%string) (map (row_of d3) (df_rows d3)) = listed d2 "DISTRIBUTOR" "SIM_BULK").
      { rewrite <- listed_rows, (listed_columns d3), (Cols "DISTRIBUTOR"%string), (Cols "SIM_BULK"%string), <- listed_columns by (cbn; tauto). reflexivity. }
      split.
      + intros Ndl. assert (Nc : NoDup (column_of d3 "DEALER_ID")); [|unfold column_of in Nc; rewrite map_map; exact Nc]. rewrite (Cols "DEALER_ID"%string) by (cbn; tauto).
        assert (Ax : forall n, In n ["SIM_BULK"%string] -> ~ In n (df_cols d1)) by (intros n [<-|[]]; rewrite C1; apply mem_not_In; reflexivity).
        refine (op_distinct (grabbing c) ["SIM_BULK"%string] d1 v1 d2 l2 v2 "DEALER_ID" _ R2 Rd1 (one_nodup _) Ax _ _); [reflexivity|rewrite C1; cbn; tauto|].
        assert (Wd : widens true ["DEALER_ID"%string] (choosing c) ["DEALER_ID"; "DATETIME"; "DISTRIBUTOR"; "BULK_BUY_SIZE"]%string).
        { unfold choosing. widen_any ["DATETIME"]%string. widen_any ["DISTRIBUTOR"]%string. widen_any ["BULK_BUY_SIZE"]%string. constructor. }
        rewrite Efs in R1. refine (list_distinct _ _ _ _ "DEALER_ID" Wd (or_introl eq_refl) (init_story_data "DEALER_ID" (due_members s)) _ _ _ _ _ eq_refl (init_rect _ _) _ R1).
        assert (Ec : column_of (init_story_data "DEALER_ID" (due_members s)) "DEALER_ID" = due_members s) by (unfold column_of, init_story_data; cbn [df_rows df_cols]; rewrite map_map; cbn; now rewrite map_id).
        rewrite Ec. destruct (story_then w0 w bulk_purchases S s Es) as (s1 & Es1 & T). assert (s1 = s0) by congruence. subst s1. destruct T as (_ & _ & _ & _ & _ & _ & _ & _ & Ti).
        apply NoDup_due. rewrite Ti, Ei. exact Ndl.
      + cbv zeta. rewrite El, X', <- (pairs_same_rel _ _ _ X1). repeat split; assumption.
  Qed.

  Definition shelved (k : val) (w : world) (L : logs) (w' : world) : Prop :=
    exists n b r, bought_from k (records "bulk_purchases" L) = qnat b /\ restocked k (records "distributor_restock" L) = qnat r /\
      length (items w' distributed k) + n = length (items w distributed k) + r /\ n <= b /\ (NoDup dealers -> one_client w0 c dealers k -> n = b).

  Lemma still k w l w' : pairs_of w' distributed = pairs_of w distributed -> records "bulk_purchases" l = [] -> records "distributor_restock" l = [] -> shelved k w l w'.
  Proof. intros E R1 R2. exists 0, 0, 0. rewrite R1, R2, !items_length, E. repeat split; try reflexivity; lia. Qed.

  Lemma shelved_exec k a w l w' : k <> VNA -> since w0 w -> as_many w0 w -> execute a w = (Ok l, w') -> shelved k w l w'.
  Proof.
    intros Nk S M H. destruct a as [|[|[|[|[|[|a]]]]]].
    - pose proof (snd_story_restock _ _ _ _ _ F) as Hs. destruct (restock_more _ _ _ _ _ F w l w' S H) as (s & rows & _ & Sh & _ & Gen & P).
      exists 0, 0, (length (about k (unpacked (map (fun row : record => (row "DISTRIBUTOR_ID", row "NEW_SIMS_IDS")%string) rows)))).
      rewrite (silent _ "bulk_purchases" _ _ _ _ _ _ _ Hs eq_refl S H). split; [reflexivity|]. split; [exact (shown_same k rows _ Sh Gen)|].
      rewrite !items_length, (about_perm k _ _ P), about_app, app_length. repeat split; lia.
    - pose proof (snd_story_purchases _ _ _ _ _ F) as Hs. apply still; [|exact (silent _ "bulk_purchases" _ _ _ _ _ _ _ Hs eq_refl S H)|exact (silent _ "distributor_restock" _ _ _ _ _ _ _ Hs eq_refl S H)].
      refine (idle _ distributed _ _ _ (snd_purchases c) w l w' Hs _ S H); cbn -[Nat.eqb]; apart 3 0; apart 1 0; apart 2 0; reflexivity.
    - pose proof (snd_story_bulk _ _ _ _ _ F) as Hs. destruct (grab_more w l w' S H) as (s & rows & gone & served & Es & Ef & Sh & Rows & Ndl & P1 & P2 & I & Nd & Al).
      assert (Told : Forall (fun row : record => exists ts, row "SIM_BULK"%string = VList ts /\ row "NUMBER_OF_SIMS"%string = vnat (length ts)) rows).
      { apply Forall_forall. intros row Hr. rewrite Forall_forall in Rows. destruct (bulk_told c w s row (Rows _ Hr)) as (ts & Et & En & _). eauto. }
      exists (length (about k gone)), (length (about k (unpacked (map (fun row : record => (row "DISTRIBUTOR", row "SIM_BULK")%string) rows)))), 0.
      split; [exact (bought_shown k rows _ Sh Told)|]. rewrite (silent _ "distributor_restock" _ _ _ _ _ _ _ Hs eq_refl S H). split; [reflexivity|].
      rewrite !items_length, (about_perm k _ _ P1), about_app, app_length. split; [lia|]. rewrite (about_perm k _ _ P2). split; [exact (about_served k _ _ I Nd)|].
      intros Nl One. apply about_one; [exact I|exact Nd|exact Al|].
      pose proof (bulk_true _ _ _ _ _ F w l w' S M H) as Tr. rewrite Forall_forall in Tr. specialize (Ndl Nl).
      assert (Hd : forall row : record, In row rows -> row "DISTRIBUTOR"%string = k -> In (row "DEALER_ID"%string) dealers /\ In k (items w0 (n_distro_of c) (row "DEALER_ID"%string))).
      { intros row Hr Ek. assert (Hrec : exists r, In r (records "bulk_purchases" l) /\ shows bulk_columns row r).
        { clear - Sh Hr. induction Sh as [|x y xs ys S1 _ IH]; [destruct Hr|]. destruct Hr as [<-|Hr]; [exists y; split; [now left|exact S1]|]. destruct (IH Hr) as (r & H1 & H2). exists r. split; [now right|exact H2]. }
        destruct Hrec as (r & Hr1 & S1). destruct (Tr _ Hr1) as ((s2 & Es2 & Hdue) & Dist & _). rewrite (S1 "DEALER_ID"%string), (S1 "DISTRIBUTOR"%string), Ek in Dist by (cbn; tauto). rewrite (S1 "DEALER_ID"%string) in Hdue by (cbn; tauto).
        split.
        - destruct Hs as (s0 & Es0 & _ & Ei & _). assert (s2 = s) by congruence. subst s2. destruct (story_then w0 w bulk_purchases S s Es) as (s1 & Es1 & T). assert (s1 = s0) by congruence. subst s1. destruct T as (_ & _ & _ & _ & _ & _ & _ & _ & Ti).
          rewrite <- Ei, <- Ti. unfold due_members in Hdue. apply in_map_iff in Hdue as (x & <- & Hx). apply filter_In in Hx as [Hx _]. now apply in_map.
        - destruct Dist as [Dist|[_ Dist]]; [|contradiction]. unfold items, pairs_of in *. destruct (nth_error (w_rels w0) (n_distro_of c)) as [rel|] eqn:Er.
          + destruct (hd_items _ _ _ _ S _ (distro_steady _ _ _ _ _ F) rel Er) as (rel' & Er' & Es'). rewrite Er', Es' in Dist. exact Dist.
          + apply nth_error_None in Er. rewrite <- (hd_rels _ _ _ _ S) in Er. apply nth_error_None in Er. rewrite Er in Dist. exact Dist. }
      clear - Ndl Hd One. 
      assert (G : length (filter (fun row : record => val_eqb (row "DISTRIBUTOR"%string) k) rows) <= 1).
      { induction rows as [|row rows IH]; [cbn; lia|]. cbn [map] in Ndl. inversion Ndl as [|? ? Hn Nd']; subst. cbn [filter].
        change val_eqb with (@keqb val _) in *. destruct (keqb_spec (row "DISTRIBUTOR"%string) k) as [Ek|]; [|apply IH; [exact Nd'|intros x Hx; apply Hd; now right]].
        cbn [length]. destruct (filter (fun x : record => keqb (x "DISTRIBUTOR"%string) k) rows) as [|x rest] eqn:Ef; [cbn; lia|]. exfalso.
        assert (Hx : In x rows /\ keqb (x "DISTRIBUTOR"%string) k = true) by (apply (filter_In (fun x : record => keqb (x "DISTRIBUTOR"%string) k)); rewrite Ef; now left).
        destruct Hx as [Hx Kx]. apply keqb_eq in Kx. destruct (Hd row (or_introl eq_refl) Ek) as [A1 A2]. destruct (Hd x (or_intror Hx) Kx) as [B1 B2].
        apply Hn. rewrite (One _ _ A1 B1 A2 B2). now apply (in_map (fun r : record => r "DEALER_ID"%string)). }
      clear - G. revert G. induction rows as [|row rows IH]; [auto|]. cbn [map filter fst]. destruct (val_eqb (row "DISTRIBUTOR"%string) k); cbn [length]; intros G; [|auto].
      assert (Z : forall l : list record, length (filter (fun x : val * val => val_eqb (fst x) k) (map (fun row : record => (row "DISTRIBUTOR", row "SIM_BULK")%string) l)) = length (filter (fun row : record => val_eqb (row "DISTRIBUTOR"%string) k) l)).
      { induction l as [|y l IHl]; [reflexivity|]. cbn [map filter fst]. destruct (val_eqb (y "DISTRIBUTOR"%string) k); cbn [length]; now rewrite IHl. }
      rewrite Z. exact G.
    - pose proof (snd_story_start _ _ _ _ _ F) as Hs. apply still; [exact (idle _ distributed _ _ _ _ _ _ _ Hs eq_refl S H)|exact (silent _ "bulk_purchases" _ _ _ _ _ _ _ Hs eq_refl S H)|exact (silent _ "distributor_restock" _ _ _ _ _ _ _ Hs eq_refl S H)].
    - pose proof (snd_story_stops _ _ _ _ _ F) as Hs. apply still; [exact (idle _ distributed _ _ _ _ _ _ _ Hs eq_refl S H)|exact (silent _ "bulk_purchases" _ _ _ _ _ _ _ Hs eq_refl S H)|exact (silent _ "distributor_restock" _ _ _ _ _ _ _ Hs eq_refl S H)].
    - pose proof (snd_story_reviews _ _ _ _ _ F) as Hs. apply still; [exact (idle _ distributed _ _ _ _ _ _ _ Hs eq_refl S H)|exact (silent _ "bulk_purchases" _ _ _ _ _ _ _ Hs eq_refl S H)|exact (silent _ "distributor_restock" _ _ _ _ _ _ _ Hs eq_refl S H)].
    - exfalso. apply execute_ok in H as (s & Es & _). destruct (story_then w0 w _ S s Es) as (s0 & Es0 & _). change (nth_error (w_stories w0) (6 + a) = Some s0) in Es0.
      assert (X : nth_error (w_stories w0) (6 + a) = None) by (apply nth_error_None; rewrite (snd_six _ _ _ _ _ F); lia). congruence.
  Qed.

  Lemma shelved_trans k w L1 w1 L2 w2 : shelved k w L1 w1 -> shelved k w1 L2 w2 -> shelved k w (L1 ++ L2) w2.
  Proof.
    intros (n1 & b1 & r1 & A1 & A2 & A3 & A4 & A5) (n2 & b2 & r2 & B1 & B2 & B3 & B4 & B5). exists (n1 + n2), (b1 + b2), (r1 + r2).
    rewrite !records_app, bought_app, restocked_app, A1, A2, B1, B2, !qnat_add. split; [reflexivity|]. split; [reflexivity|]. split; [lia|]. split; [lia|]. intros N O. rewrite (A5 N O), (B5 N O). reflexivity.
  Qed.
  Lemma shelved_history k hs : k <> VNA -> forall w L w', since w0 w -> as_many w0 w -> emits w hs L w' -> shelved k w L w'.
  Proof.
    intros Nk. induction hs as [|h hs IH]; intros w L w' S M H.
    - inversion H; subst. apply still; reflexivity.
    - inversion H as [|y1 a l w1 y5 L' y7 Hx He|y1 y2 w1 y4 y5 y6 Hno Hh1 He]; subst.
      + pose proof (shelved_exec k a w l w1 Nk S M Hx) as B. refine (shelved_trans _ _ _ _ _ _ B (IH _ _ _ (exec_since w0 _ _ _ _ S Hx) _ He)).
        eapply many_trans; [exact M|]. pose proof (execute_many a w) as K. rewrite Hx in K. exact K.
      + pose proof (other_fields h w w1 Hno Hh1) as (_ & _ & Er & _).
        assert (B : shelved k w [] w1) by (apply still; try reflexivity; unfold pairs_of; now rewrite Er).
        refine (shelved_trans k w [] w1 L w' B (IH _ _ _ (other_since w0 _ _ _ Hno Hh1 S) _ He)). eapply many_trans; [exact M|]. exact (many_other h w w1 Hno Hh1).
  Qed.
  Lemma shelved_all k hs L w' : k <> VNA -> emits w0 hs L w' -> shelved k w0 L w'.
  Proof. intros Nk H. exact (shelved_history k hs Nk _ _ _ (start_since _ _ _ _ _ F) (many_refl w0) H). Qed.
End Stocks.
