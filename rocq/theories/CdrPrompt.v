(** In tests/scenarios/test_cdr.py, SIM cards are topped up after they spent something. *)
From Verif Require CircusFacts.
From Verif Require Import Base BaseFacts Rng Utils Relationship SpecRelationship Frame Gens Clock SpecClock Attribute SpecAttribute World Story Ops OpsFacts Helpers
  Circus SpecStory StoryFacts StoryExec StoryProps StoryMore SpecOps StoryWorld StoryWorld2 OpsProps SpecCircus SpecPopulation SpecLocal LocalFacts SpecSupply SupplyFacts SupplyProps SpecLedger LedgerProps SpecRecords RecordsProps SpecNow NowProps SpecJournal
  RowsProps OpRows SpecSafe SafeOps SafeRun SpecChains ChainsProps GeographyLog Geography Cdr SpecCdr SpecSnd CdrFacts CdrProps SpecCdrLogs CdrLogs CdrBooks StoryForce SpecPrompt PromptProps.

(** ** One operation that tells a story to act *)
Lemma only_one (P : op -> bool) b1 : forall o1 r1 b2 o2 r2, b1 ++ o1 :: r1 = b2 ++ o2 :: r2 -> P o1 = true -> forallb (fun o => negb (P o)) (b2 ++ r2) = true -> b1 = b2 /\ o1 = o2.
Proof.
  induction b1 as [|x b1 IH]; intros o1 r1 [|y b2] o2 r2 E H K; cbn [app] in E.
  - injection E as -> _. auto.
  - injection E as -> _. cbn in K. rewrite H in K. discriminate.
  - injection E as _ E. cbn [app] in K. rewrite <- E in K. rewrite forallb_app in K. apply andb_true_iff in K as [_ K]. cbn in K. rewrite H in K. discriminate.
  - injection E as -> E. cbn [app forallb] in K. apply andb_true_iff in K as [_ K]. destruct (IH _ _ _ _ _ E H K) as [-> ->]. auto.
Qed.
Definition may_tell (b : nat) (o : op) : bool := match o with OpForce n _ _ => Nat.eqb n b | OpChain _ => true | _ => false end.
Lemma told_may b i o d w : told b i o d w -> may_tell b o = true.
Proof. intros H. destruct H; cbn; [apply Nat.eqb_refl|reflexivity]. Qed.

Section Forces.
  Context (w0 : world) (a : nat) (s0 : story) (b : nat) (f : string) (cond : option string) (id : string) (names : list string) (before between afterwards : list op) (cols cols' : list string).
  Hypothesis Es0 : nth_error (w_stories w0) a = Some s0.
  Hypothesis Eo : st_ops s0 = before ++ OpForce b f cond :: between ++ OpFieldLogger id names [] :: afterwards.
  Hypothesis Bb : builds_up [st_field s0] before cols.
  Hypothesis Bt : builds_up cols (OpForce b f cond :: between) cols'.
  Hypothesis Wt : widens false cols between cols'.
  Hypothesis Hnames : names = [] \/ incl names cols' /\ names <> [].
  Hypothesis Others : Forall (fun o => mute id o = true) (before ++ OpForce b f cond :: between ++ afterwards).
  Hypothesis Only : forallb (fun o => negb (may_tell b o)) (before ++ between ++ OpFieldLogger id names [] :: afterwards) = true.
  Hypothesis Hf : In f cols.

  Lemma told_logged w l w' i : since w0 w -> execute a w = (Ok l, w') -> told_during b i w (HExec a) ->
    exists s row r, nth_error (w_stories w) a = Some s /\ st_field s = st_field s0 /\ row_now w s (before ++ OpForce b f cond :: between) row /\ row f = i /\
      In r (records id l) /\ shows (shown_columns names cols') row r.
  Proof.
    intros S H T. unshelve epose proof (exec_parts w0 a s0 (OpForce b f cond) id names before between afterwards cols [] cols' Es0 Eo Bb Bt _ _ Hnames Others w l w' S H) as K.
    { rewrite app_nil_r. exact Wt. }
    { split; [constructor|]. split; [constructor|intros c []]. }
    destruct K as (s & Es & Ef & K). cbn [told_during] in T. destruct T as (s1 & Es1 & Hd & T). assert (s1 = s) by congruence. subst s1.
    destruct K as [(_ & _ & _ & K)|(d1 & d2 & d3 & d5 & v1 & v2 & v3 & v5 & E)]; [contradiction|].
    destruct (story_then w0 w a S s Es) as (s2 & Es2 & St). assert (s2 = s0) by congruence. subst s2. destruct St as (_ & _ & _ & _ & _ & _ & _ & To & _).
    rewrite To, Eo, (at_start_unforced _ _ _ Es) in T. inversion T as [|b1 o1 r1 ? ? d1' l1 v1' Hr T1 Ec]; subst.
    destruct (only_one (may_tell b) b1 o1 r1 _ _ _ Ec (told_may _ _ _ _ _ T1) Only) as [-> ->]. clear Ec T.
    destruct (ex_before _ _ _ _ _ _ _ _ _ _ _ _ _ _ _ _ _ _ _ _ _ _ E) as (l1' & R1). unfold run_chain in Hr. change (init_story_data (st_field s) (due_members s)) with (story_rows (st_field s) (due_members s)) in R1.
    rewrite R1 in Hr. injection Hr as -> -> ->.
    inversion T1 as [f' cond' ? ? row Hrow Hcell Hna Hcond|]; subst.
    destruct (ex_op _ _ _ _ _ _ _ _ _ _ _ _ _ _ _ _ _ _ _ _ _ _ E) as (l2 & R2). apply force_op_ok in R2 as (-> & _ & _); [|intros N; rewrite N in Hrow; destruct Hrow].
    pose proof (ex_columns _ _ _ _ _ _ _ _ _ _ _ _ _ _ _ _ _ _ _ _ _ _ E f ltac:(rewrite app_nil_r; exact Hf)) as Ecol.
    assert (Hin : In (cell (df_cols d1') (snd row) f) (column_of d3 f)) by (rewrite Ecol; unfold column_of; apply in_map_iff; eauto).
    unfold column_of in Hin. apply in_map_iff in Hin as (row3 & Er & Hin).
    pose proof (ex_shows _ _ _ _ _ _ _ _ _ _ _ _ _ _ _ _ _ _ _ _ _ _ E) as Sh.
    assert (Hm : In (row_of d3 row3) (map (row_of d3) (df_rows d3))) by now apply in_map.
    apply In_nth_error in Hm as (k & Hk). destruct (Forall2_nth_error_l _ _ _ _ _ Sh Hk) as (r & Hr & Hs).
    exists s, (row_of d3 row3), r. split; [exact Es|]. split; [exact Ef|]. split; [exact (ex_rows _ _ _ _ _ _ _ _ _ _ _ _ _ _ _ _ _ _ _ _ _ _ E _ Hin)|].
    split; [exact Er|]. split; [exact (nth_error_In _ _ Hr)|exact Hs].
  Qed.
End Forces.

Lemma same_data x idf copy d w d' l w' : run_op (OpAttrUpdate x idf copy) d w = (Ok (d', l), w') -> d' = d.
Proof. intros H. cbn [run_op] in H. unfold side_effect in H. mstep H. injection H as -> _ _. reflexivity. Qed.
Lemma column_sublist cols ops cols' : widens true cols ops cols' -> forall d l0 w d' l w', df_cols d = cols -> rectangular d -> run_list run_op ops d l0 w = (Ok (d', l), w') ->
  forall c, In c cols -> sublist (column_of d' c) (column_of d c).
Proof.
  induction 1 as [cols|cols o new ops cols' A Nn Hf Hd _ IH]; intros d l0 w d' l w' Hc Rd H c Hin.
  - cbn [run_list] in H. injection H as <- <- <-. apply sublist_refl.
  - apply run_list_step in H as (d1 & l1 & w1 & all & H1 & M & H). subst cols.
    destruct (other_restricts _ _ _ _ _ _ _ A H1 Rd Nn Hf) as (Hc1 & kept & (Sk & Rd1 & Hk) & _). destruct (Hk c Hin) as [Hin1 E1]. rewrite Hc1 in Hin1.
    eapply sublist_trans; [exact (IH _ _ _ _ _ _ Hc1 Rd1 H c Hin1)|]. rewrite E1. now apply sublist_map.
Qed.
Lemma widen_any cols o new ops cols' : adds o new -> new_ok cols new [] = true -> widens true (cols ++ new) ops cols' -> widens true cols (o :: ops) cols'.
Proof.
  intros A B D. unfold new_ok in B. rewrite !andb_true_iff in B. destruct B as [[B1 B2] _]. rewrite forallb_forall in B2.
  apply (widens_by _ _ _ new); auto.
  - now apply nodupb_NoDup.
  - intros c Hc K. specialize (B2 _ Hc). apply negb_true_iff in B2. apply mem_In in K. congruence.
Qed.
Lemma NoDup_filter_one {A} (f : A -> val) (k : val) (l : list A) : NoDup (map f l) -> length (filter (fun x => val_eqb (f x) k) l) <= 1.
Proof.
  induction l as [|x l IH]; cbn [map filter]; intros N; [auto|]. inversion N as [|? ? Hx Nl]; subst. destruct (val_eqb (f x) k) eqn:E; [|auto].
  apply val_eqb_eq in E. subst k. replace (filter (fun y => val_eqb (f y) (f x)) l) with (@nil A); [cbn; lia|]. clear - Hx. induction l as [|y l IH]; [reflexivity|]. cbn [filter].
  destruct (val_eqb (f y) (f x)) eqn:E; [apply val_eqb_eq in E; exfalso; apply Hx; left; exact E|apply IH; intros H; apply Hx; now right].
Qed.
Lemma of_whom_app n k (l l' : list record) : of_whom n k (l ++ l') = of_whom n k l ++ of_whom n k l'.
Proof. apply (filter_app (A := record)). Qed.

(** ** Without nested chains *)
Section Flat.
  Context (w0 : world) (c : cdr) (src : sources) (unhealthy healthy : nat) (subs sims cells : list val).
  Hypothesis F : flat_circus w0 c src unhealthy healthy subs sims cells.
  Hypothesis R : cdr_ready w0 c unhealthy healthy subs sims cells.

  Definition before_force (own : list op) : list op :=
    ((compute_ab_fields c ++ compute_cell_status c) ++ own) ++ [charging c; OpGenerateDep (k_recharge_trigger c) "SHOULD_TOP_UP" "MAIN_ACCT_NEW"].
  Lemma told_call w l w' sim : ~ In VNA subs -> fine (kinds w0 c) w0 w -> execute 4 w = (Ok l, w') -> told_during 3 sim w (HExec 4) ->
    exists r, In r (records "voice_cdr" l) /\ holds w0 (k_msisdn c) sim (r "MSISDN_A"%string).
  Proof.
    intros Na Fw H T. pose proof (fi_since _ _ _ Fw) as S. destruct (fc_story _ _ _ _ _ _ _ _ F 4 _ _ _ eq_refl) as (s0 & Es0 & Ef & _ & judge & Eo). rewrite calls_flat in Eo.
    destruct (fc_numbers _ _ _ _ _ _ _ _ F) as (N3 & N4 & N5).
    unshelve epose proof (told_logged w0 4 s0 3 "SIM_A" (Some "SHOULD_TOP_UP"%string) "voice_cdr" voice_columns (before_force (calls_own c)) (get_bursty c) [OpBack 4 judge]
      ((ab_columns ++ ["PRODUCT"; "DURATION"; "VALUE"; "MAIN_ACCT_NEW"]%string) ++ ["SHOULD_TOP_UP"]%string)
      ((ab_columns ++ ["PRODUCT"; "DURATION"; "VALUE"; "MAIN_ACCT_NEW"]%string) ++ ["SHOULD_TOP_UP"; "A_GETTING_BURSTY"; "B_GETTING_BURSTY"]%string) Es0 _ _ _ _ _ _ _ _ w l w' sim S H T) as (s & row & r & Es & Efs & Hr & Hi & Hin & Hs).
    - rewrite Eo. unfold before_force, consequences, trigger_topups. rewrite N3, <- !app_assoc. reflexivity.
    - rewrite Ef. refine (builds_up_app _ _ _ _ _ (builds_up_app _ _ _ _ _ (ab_builds c) (calls_builds c)) _).
      unfold charging, ab_columns. cbn [app]. build (@nil string). build ["SHOULD_TOP_UP"]%string. apply built_up.
    - unfold get_bursty, ab_columns. cbn [app]. build (@nil string).
      build ["A_GETTING_BURSTY"]%string. build (@nil string). build (@nil string). build ["B_GETTING_BURSTY"]%string. do 4 (build (@nil string)). apply built_up.
    - unfold get_bursty, ab_columns. cbn [app]. widen ["A_GETTING_BURSTY"]%string. widen (@nil string). widen (@nil string). widen ["B_GETTING_BURSTY"]%string. do 4 (widen (@nil string)). constructor.
    - right. split; [apply incl_check; reflexivity|discriminate].
    - apply Forall_forall. apply forallb_forall. reflexivity.
    - unfold get_bursty. rewrite N4, N5. reflexivity.
    - apply mem_In. reflexivity.
    - exists r. split; [exact Hin|].
      assert (Hr' : row_now w s (((compute_ab_fields c ++ compute_cell_status c) ++ calls_own c) ++ charging c :: consequences c) row).
      { replace (((compute_ab_fields c ++ compute_cell_status c) ++ calls_own c) ++ charging c :: consequences c)
          with (before_force (calls_own c) ++ OpForce 3 "SIM_A" (Some "SHOULD_TOP_UP"%string) :: get_bursty c); [exact Hr|].
        unfold before_force, consequences, trigger_topups. rewrite N3, <- !app_assoc. reflexivity. }
      destruct (call_row w0 c src unhealthy healthy subs sims cells F R w Fw s row r Na Es (eq_trans Efs Ef) Hr' Hs) as (_ & Hm & _).
      rewrite Hi in Hm. rewrite (Hs "MSISDN_A"%string ltac:(apply mem_In; reflexivity)). now apply (msisdn_holds w0 c src unhealthy healthy subs sims cells F w _ _ S).
  Qed.
  Lemma told_message w l w' sim : ~ In VNA subs -> fine (kinds w0 c) w0 w -> execute 5 w = (Ok l, w') -> told_during 3 sim w (HExec 5) ->
    exists r, In r (records "sms_cdr" l) /\ holds w0 (k_msisdn c) sim (r "MSISDN_A"%string).
  Proof.
    intros Na Fw H T. pose proof (fi_since _ _ _ Fw) as S. destruct (fc_story _ _ _ _ _ _ _ _ F 5 _ _ _ eq_refl) as (s0 & Es0 & Ef & _ & judge & Eo). rewrite sms_flat in Eo.
    destruct (fc_numbers _ _ _ _ _ _ _ _ F) as (N3 & N4 & N5).
    unshelve epose proof (told_logged w0 5 s0 3 "SIM_A" (Some "SHOULD_TOP_UP"%string) "sms_cdr" sms_columns (before_force (sms_own c)) (get_bursty c) [OpBack 5 judge]
      ((ab_columns ++ ["PRODUCT"; "VALUE"; "MAIN_ACCT_NEW"]%string) ++ ["SHOULD_TOP_UP"]%string)
      ((ab_columns ++ ["PRODUCT"; "VALUE"; "MAIN_ACCT_NEW"]%string) ++ ["SHOULD_TOP_UP"; "A_GETTING_BURSTY"; "B_GETTING_BURSTY"]%string) Es0 _ _ _ _ _ _ _ _ w l w' sim S H T) as (s & row & r & Es & Efs & Hr & Hi & Hin & Hs).
    - rewrite Eo. unfold before_force, consequences, trigger_topups. rewrite N3, <- !app_assoc. reflexivity.
    - rewrite Ef. refine (builds_up_app _ _ _ _ _ (builds_up_app _ _ _ _ _ (ab_builds c) (sms_builds c)) _).
      unfold charging, ab_columns. cbn [app]. build (@nil string). build ["SHOULD_TOP_UP"]%string. apply built_up.
    - unfold get_bursty, ab_columns. cbn [app]. build (@nil string).
      build ["A_GETTING_BURSTY"]%string. build (@nil string). build (@nil string). build ["B_GETTING_BURSTY"]%string. do 4 (build (@nil string)). apply built_up.
    - unfold get_bursty, ab_columns. cbn [app]. widen ["A_GETTING_BURSTY"]%string. widen (@nil string). widen (@nil string). widen ["B_GETTING_BURSTY"]%string. do 4 (widen (@nil string)). constructor.
    - right. split; [apply incl_check; reflexivity|discriminate].
    - apply Forall_forall. apply forallb_forall. reflexivity.
    - unfold get_bursty. rewrite N4, N5. reflexivity.
    - apply mem_In. reflexivity.
    - exists r. split; [exact Hin|].
      assert (Hr' : row_now w s (((compute_ab_fields c ++ compute_cell_status c) ++ sms_own c) ++ charging c :: consequences c) row).
      { replace (((compute_ab_fields c ++ compute_cell_status c) ++ sms_own c) ++ charging c :: consequences c)
          with (before_force (sms_own c) ++ OpForce 3 "SIM_A" (Some "SHOULD_TOP_UP"%string) :: get_bursty c); [exact Hr|].
        unfold before_force, consequences, trigger_topups. rewrite N3, <- !app_assoc. reflexivity. }
      destruct (sms_row w0 c src unhealthy healthy subs sims cells F R w Fw s row r Na Es (eq_trans Efs Ef) Hr' Hs) as (_ & Hm & _).
      rewrite Hi in Hm. rewrite (Hs "MSISDN_A"%string ltac:(apply mem_In; reflexivity)). now apply (msisdn_holds w0 c src unhealthy healthy subs sims cells F w _ _ S).
  Qed.
  Lemma told_by_whom w a sim : since w0 w -> told_during 3 sim w (HExec a) -> a = 4 \/ a = 5.
  Proof.
    intros S (s & Es & _ & T). destruct (story_then w0 w a S s Es) as (s0 & Es0 & (_ & _ & _ & _ & _ & _ & _ & To & _)).
    destruct (ops_of w0 c src unhealthy healthy subs sims cells F _ _ Es0) as (field & members & ops & judge & X & Eo).
    inversion T as [|b1 o1 r1 ? ? d1 l1 v1 Hr T1 Ec]; subst. apply told_may in T1. rewrite To, Eo in Ec.
    assert (Hin : In o1 (ops ++ [OpBack a judge])) by (rewrite <- Ec; apply in_or_app; right; now left).
    assert (B : a = 4 \/ a = 5 \/ forallb (fun o => negb (may_tell 3 o)) (ops ++ [OpBack a judge]) = true).
    { destruct a as [|[|[|[|[|[|a]]]]]]; cbn [nth_error flat_stories] in X; try (injection X as _ _ <-); try (now left); try (right; now left); try (right; right; reflexivity). destruct a; discriminate. }
    destruct B as [B|[B|B]]; auto. rewrite forallb_forall in B. specialize (B _ Hin). rewrite T1 in B. discriminate.
  Qed.
  Lemma told_spent w l w' a sim : ~ In VNA subs -> fine (kinds w0 c) w0 w -> execute a w = (Ok l, w') -> told_during 3 sim w (HExec a) ->
    a <> 3 /\ exists r, (In r (records "voice_cdr" l) \/ In r (records "sms_cdr" l)) /\ holds w0 (k_msisdn c) sim (r "MSISDN_A"%string).
  Proof.
    intros Na Fw H T. destruct (told_by_whom w a sim (fi_since _ _ _ Fw) T) as [->| ->]; (split; [discriminate|]).
    - destruct (told_call _ _ _ _ Na Fw H T) as (r & K1 & K2). eauto.
    - destruct (told_message _ _ _ _ Na Fw H T) as (r & K1 & K2). eauto.
  Qed.
  (** Every topup of an execution is that of another SIM card. *)
  Lemma topups_more w l w' : since w0 w -> execute 3 w = (Ok l, w') ->
    exists s rows, nth_error (w_stories w) 3 = Some s /\ st_field s = "SIM_ID"%string /\ Forall2 (shows topup_columns) rows (records "topups" l) /\
      Forall (row_now w s (topup_own c ++ crediting c :: [OpTimestamp "TIME" true (k_fmt c)])) rows /\ sublist (map (fun row : record => row "SIM_ID"%string) rows) (due_members s).
  Proof.
    intros S H. destruct (fc_story _ _ _ _ _ _ _ _ F 3 _ _ _ eq_refl) as (s0 & Es0 & Ef & _ & judge & Eo). rewrite topups_flat in Eo.
    unshelve epose proof (exec_parts w0 3 s0 (crediting c) "topups" topup_columns (topup_own c) [OpTimestamp "TIME" true (k_fmt c)] [OpBack 3 judge] topup_known [] (topup_known ++ ["TIME"%string])
      Es0 _ _ _ _ _ _ _ w l w' S H) as (s & Es & Efs & K).
    - rewrite Eo. repeat rewrite <- app_assoc. reflexivity.
    - rewrite Ef. exact (topup_builds c).
    - exact (topup_follow c).
    - rewrite app_nil_r. exact (topup_widen c).
    - split; [constructor|]. split; [constructor|intros n []].
    - right. split; [apply incl_check; reflexivity|discriminate].
    - apply Forall_forall. apply forallb_forall. reflexivity.
    - rewrite Ef in Efs. destruct K as [(Er & _ & _ & Ed)|(d1 & d2 & d3 & d5 & v1 & v2 & v3 & v5 & E)].
      { exists s, []. split; [exact Es|]. split; [exact Efs|]. rewrite Er, Ed. split; [constructor|]. split; [constructor|]. apply sublist_refl. }
      exists s, (map (row_of d3) (df_rows d3)). split; [exact Es|]. split; [exact Efs|]. split; [exact (ex_shows _ _ _ _ _ _ _ _ _ _ _ _ _ _ _ _ _ _ _ _ _ _ E)|].
      split; [apply Forall_forall; intros row Hrow; apply in_map_iff in Hrow as (x & <- & Hx); exact (ex_rows _ _ _ _ _ _ _ _ _ _ _ _ _ _ _ _ _ _ _ _ _ _ E _ Hx)|].
      rewrite map_map. change (sublist (column_of d3 "SIM_ID") (due_members s)).
      rewrite (ex_columns _ _ _ _ _ _ _ _ _ _ _ _ _ _ _ _ _ _ _ _ _ _ E "SIM_ID"%string ltac:(now left)).
      destruct (ex_op _ _ _ _ _ _ _ _ _ _ _ _ _ _ _ _ _ _ _ _ _ _ E) as (l2 & R2). destruct (ex_before _ _ _ _ _ _ _ _ _ _ _ _ _ _ _ _ _ _ _ _ _ _ E) as (l1 & R1).
      destruct (ex_d1 _ _ _ _ _ _ _ _ _ _ _ _ _ _ _ _ _ _ _ _ _ _ E) as (Hc1 & Rd1).
      assert (E2 : d2 = d1) by (unfold crediting in R2; exact (same_data _ _ _ _ _ _ _ _ R2)). subst d2.
      assert (Wd : widens true ["SIM_ID"%string] (topup_own c) topup_known).
      { unfold topup_own, cdr_topups, topup_known. cbn [firstn]. apply (widen_any _ _ ["CUSTOMER_NUMBER"; "OPERATOR"; "MAIN_ACCT_OLD"]%string); [reflexivity|reflexivity|cbn [app]].
        apply (widen_any _ _ ["AGENT"]%string); [reflexivity|reflexivity|cbn [app]]. apply (widen_any _ _ ["VALUE"]%string); [reflexivity|reflexivity|cbn [app]].
        apply (widen_any _ _ ["MAIN_ACCT"]%string); [apply add_binary|reflexivity|cbn [app]]. constructor. }
      rewrite Efs in R1. assert (Rd0 : rectangular (init_story_data "SIM_ID" (due_members s))) by apply init_rect.
      pose proof (column_sublist _ _ _ Wd (init_story_data "SIM_ID" (due_members s)) _ _ _ _ _ eq_refl Rd0 R1 "SIM_ID"%string ltac:(now left)) as Col.
      replace (column_of (init_story_data "SIM_ID" (due_members s)) "SIM_ID") with (due_members s) in Col; [exact Col|].
      unfold column_of, init_story_data. cbn [df_rows df_cols]. rewrite map_map. cbn [snd cell]. rewrite String.eqb_refl. symmetry. apply map_id.
  Qed.
  Hypothesis Nd : numbers_differ w0 c.
  Definition toppings (m : val) (L : logs) : nat := length (of_whom "CUSTOMER_NUMBER" m (records "topups" L)).
  Definition spendings (m : val) (L : logs) : nat := length (of_whom "MSISDN_A" m (records "voice_cdr" L)) + length (of_whom "MSISDN_A" m (records "sms_cdr" L)).
  Lemma toppings_app m L L' : toppings m (L ++ L') = toppings m L + toppings m L'.
  Proof. unfold toppings. now rewrite records_app, of_whom_app, app_length. Qed.
  Lemma spendings_app m L L' : spendings m (L ++ L') = spendings m L + spendings m L'.
  Proof. unfold spendings. rewrite !records_app, !of_whom_app, !app_length. lia. Qed.

  Lemma one_topup w l w' sim m : distinct_members w -> fine (kinds w0 c) w0 w -> execute 3 w = (Ok l, w') -> holds w0 (k_msisdn c) sim m ->
    toppings m l <= 1 /\ (1 <= toppings m l -> acts_now w 3 sim).
  Proof.
    intros D Fw H Hm. pose proof (fi_since _ _ _ Fw) as S. destruct (topups_more w l w' S H) as (s & rows & Es & Ef & Sh & Rn & Ed).
    assert (Nr : NoDup (map (fun row : record => row "SIM_ID"%string) rows)) by (apply (sublist_NoDup _ _ Ed), NoDup_due; exact (D _ _ Es)).
    assert (Hr : forall row : record, In row rows -> row "CUSTOMER_NUMBER"%string = m <-> row "SIM_ID"%string = sim).
    { intros row Hin. rewrite Forall_forall in Rn. assert (Hh : holds w0 (k_msisdn c) (row "SIM_ID"%string) (row "CUSTOMER_NUMBER"%string)).
      { apply (msisdn_holds w0 c src unhealthy healthy subs sims cells F w _ _ S).
        exact (proj1 (proj2 (topup_row w0 c src unhealthy healthy subs sims cells F R w Fw s row row Es Ef (since_ids w0 c src unhealthy healthy subs sims cells F w 3 s _ _ _ S Es eq_refl) (Rn _ Hin) (fun n _ => eq_refl)))). }
      split; intros E.
      - rewrite E in Hh. exact (Nd _ _ _ Hh Hm).
      - rewrite E in Hh. destruct (ready_msisdn _ _ _ _ _ _ _ R) as (t & Et & Nt & _). destruct Hh as (t1 & Et1 & I1), Hm as (t2 & Et2 & I2). assert (t1 = t) by congruence. assert (t2 = t) by congruence. subst t1 t2.
        pose proof (In_dget _ _ _ Nt I1). pose proof (In_dget _ _ _ Nt I2). congruence. }
    assert (E : toppings m l = length (filter (fun row : record => val_eqb (row "SIM_ID"%string) sim) rows)).
    { unfold toppings, of_whom. clear - Sh Hr. induction Sh as [|row r rows rs S1 _ IH]; [reflexivity|]. cbn [filter].
      specialize (IH (fun x Hx => Hr x (or_intror Hx))). specialize (Hr row (or_introl eq_refl)). rewrite (S1 "CUSTOMER_NUMBER"%string) by (apply mem_In; reflexivity).
      destruct (val_eqb (row "CUSTOMER_NUMBER"%string) m) eqn:E1, (val_eqb (row "SIM_ID"%string) sim) eqn:E2; cbn [length]; try lia.
      - apply val_eqb_eq in E1. apply Hr in E1. apply val_eqb_eq in E1. congruence.
      - apply val_eqb_eq in E2. apply Hr in E2. apply val_eqb_eq in E2. congruence. }
    rewrite E. split; [exact (NoDup_filter_one (fun row : record => row "SIM_ID"%string) sim rows Nr)|].
    intros Hl. destruct (filter _ rows) as [|row rest] eqn:Eq; [cbn in Hl; lia|]. assert (Hin : In row (row :: rest)) by now left. rewrite <- Eq in Hin. apply filter_In in Hin as [Hin Hs].
    apply val_eqb_eq in Hs. exists s. split; [exact Es|]. apply (sublist_In _ _ _ Ed). rewrite <- Hs. now apply (in_map (fun row : record => row "SIM_ID"%string)).
  Qed.

  Lemma counted hs : ~ In VNA subs -> Forall (sensible w0) hs -> (forall ids, ~ In (HForce 3 ids) hs) -> forall v, (v < 0)%Z -> forall sim m, holds w0 (k_msisdn c) sim m ->
    forall w L w' k, distinct_members w -> quiet 3 sim v w -> fine (kinds w0 c) w0 w -> emits w hs L w' -> (ready 3 sim w -> 1 <= k) -> toppings m L <= spendings m L + k.
  Proof.
    intros Na Hs Nf v Hv sim m Hm. pose proof (flat_well_formed_with _ _ _ _ _ _ _ _ F R) as Wf.
    induction Hs as [|h hs Hh _ IH]; intros w L w' k D Q Fw H Hk.
    - inversion H; subst. cbn. lia.
    - specialize (IH (fun ids Hi => Nf ids (or_intror Hi))).
      inversion H as [|y1 a l w1 y5 L' y7 Hx He|y1 y2 w1 y4 y5 y6 Hno Hh1 He]; subst.
      + destruct (execute_runs _ _ Wf a w Hh Fw) as (l1 & w2 & E & F2). rewrite Hx in E. injection E as <- <-.
        assert (Hp : happen (HExec a) w = (Ok tt, w1)) by (cbn [happen]; rewrite Hx; reflexivity).
        pose proof (happen_distinct (HExec a) w D) as D1. rewrite Hp in D1. cbn [snd] in D1.
        destruct (step_prompts 3 sim v Hv (HExec a) w w1 D Q Hp) as (Q1 & P). rewrite toppings_app, spendings_app.
        destruct (Nat.eq_dec a 3) as [->|Na3].
        * destruct (one_topup w l w1 sim m D Fw Hx Hm) as (T1 & T2). assert (Tk : toppings m l <= k).
          { destruct (Nat.eq_dec (toppings m l) 0) as [E0|E0]; [lia|]. assert (1 <= k) by (apply Hk, (acts_ready w 3 sim D), T2; lia). lia. }
          assert (N1 : ready 3 sim w1 -> False).
          { intros Rd. destruct (P Rd) as [Td|[_ E]]; [|discriminate]. destruct (told_by_whom w 3 sim (fi_since _ _ _ Fw) Td); discriminate. }
          pose proof (IH w1 L' w' (k - toppings m l) D1 Q1 F2 He ltac:(intros Rd; destruct (N1 Rd))). lia.
        * assert (T0 : toppings m l = 0) by (unfold toppings; rewrite (silent_exec w0 c src unhealthy healthy subs sims cells F "topups" a w l w1 ltac:(now left) Na3 (fi_since _ _ _ Fw) Hx); reflexivity).
          assert (K1 : ready 3 sim w1 -> 1 <= k + spendings m l).
          { intros Rd. destruct (P Rd) as [Td|[Y _]]; [|specialize (Hk Y); lia]. destruct (told_spent w l w1 a sim Na Fw Hx Td) as (_ & r & Hr & Hmr).
            assert (Em : r "MSISDN_A"%string = m).
            { destruct (ready_msisdn _ _ _ _ _ _ _ R) as (t & Et & Nt & _). destruct Hmr as (t1 & Et1 & I1). pose proof Hm as (t2 & Et2 & I2). assert (t1 = t) by congruence. assert (t2 = t) by congruence. subst t1 t2.
              pose proof (In_dget _ _ _ Nt I1). pose proof (In_dget _ _ _ Nt I2). congruence. }
            assert (Pos : forall rs : list record, In r rs -> 1 <= length (of_whom "MSISDN_A" m rs)).
            { intros rs Hin. assert (Hin' : In r (of_whom "MSISDN_A" m rs)) by (apply filter_In; split; [exact Hin|apply val_eqb_eq; exact Em]). destruct (of_whom "MSISDN_A" m rs); [destruct Hin'|cbn; lia]. }
            unfold spendings. destruct Hr as [Hr|Hr]; apply Pos in Hr; lia. }
          pose proof (IH w1 L' w' (k + spendings m l) D1 Q1 F2 He K1). lia.
      + destruct (happening_runs _ _ Wf h w Hh Fw) as (w2 & E & F2). rewrite Hh1 in E. injection E as <-.
        pose proof (happen_distinct h w D) as D1. rewrite Hh1 in D1. cbn [snd] in D1.
        destruct (step_prompts 3 sim v Hv h w w1 D Q Hh1) as (Q1 & P). apply (IH w1 L w' k D1 Q1 F2 He).
        intros Rd. destruct (P Rd) as [Td|[Y _]]; [|exact (Hk Y)]. exfalso.
        destruct h as [a| |a ids|a ids|a ids states|a ids]; try contradiction Td; [exact (Hno a eq_refl)|]. destruct Td as [-> _]. exact (Nf ids (or_introl eq_refl)).
  Qed.
End Flat.

(** ** With chains *)
Lemma regrouped_acts w w' a i : regrouped_circus w w' -> acts_now w a i -> acts_now w' a i.
Proof. intros (stories & -> & F) (s & Es & Hi). destruct (Forall2_nth_error_l _ _ _ _ _ F Es) as (s' & Es' & ops & -> & _). exists (with_ops s ops). split; [exact Es'|exact Hi]. Qed.
Lemma regrouped_holds w w' x k v : regrouped_circus w w' -> holds w x k v <-> holds w' x k v.
Proof. intros (stories & -> & _). reflexivity. Qed.
Lemma flatten_distinct w : distinct_members w -> distinct_members (flatten w).
Proof. intros D a s E. cbn [fw set_stories w_stories] in E. rewrite nth_error_map in E. destruct (nth_error (w_stories w) a) as [s0|] eqn:E0; [|discriminate]. injection E as <-. exact (D a s0 E0). Qed.
Lemma flatten_timer w b : without_timer w b -> without_timer (flatten w) b.
Proof.
  intros ((v & Hv & s & Es & Et) & K). split.
  - exists v. split; [exact Hv|]. exists (flatten_story s). cbn [fw set_stories w_stories]. rewrite nth_error_map, Es. split; [reflexivity|exact Et].
  - intros i z (s' & st & Es' & Hi). cbn [fw set_stories w_stories] in Es'. rewrite nth_error_map, Es in Es'. injection Es' as <-. apply (K i z). exists s, st. auto.
Qed.
Section Circus.
  Context (w : world) (c : cdr) (src : sources) (unhealthy healthy : nat) (subs sims cells : list val).
  Hypothesis C : cdr_circus w c src unhealthy healthy subs sims cells.
  Hypothesis R : cdr_ready w c unhealthy healthy subs sims cells.
  Hypothesis Na : ~ In VNA subs.
  Hypothesis D : distinct_members w.
  Hypothesis T : without_timer w (k_topups c).
  Let F := flat_of _ _ _ _ _ _ _ _ C.
  Let R' := ready_flat _ _ _ _ _ _ _ _ C R.
  Let Fs := fine_start _ _ (flat_well_formed_with _ _ _ _ _ _ _ _ F R').
  Let N3 := proj1 (fc_numbers _ _ _ _ _ _ _ _ F).

  Lemma spent_before hs L w' sim : Forall (sensible w) hs -> (forall ids, ~ In (HForce (k_topups c) ids) hs) -> emits w hs L w' -> acts_now w' (k_topups c) sim ->
    exists before rest L1 w1 L2 r, hs = before ++ rest /\ emits w before L1 w1 /\ emits w1 rest L2 w' /\ executions (k_topups c) rest = 0 /\
      (In r (records "voice_cdr" L2) \/ In r (records "sms_cdr" L2)) /\ holds w (k_msisdn c) sim (r "MSISDN_A"%string).
  Proof.
    intros Hs Nf H A. destruct (regrouped_emits _ _ _ _ H _ (to_flat w)) as (wf & Hf & Rg). apply (regrouped_acts _ _ _ _ Rg) in A.
    destruct (only_when_told _ _ _ _ _ (flatten_distinct _ D) (flatten_timer _ _ T) (CircusFacts.emits_history _ _ _ _ Hf) A) as (before & h & rest & w1 & -> & Hb & Td & E).
    destruct h as [a| |a ids|a ids|a ids states|a ids]; try contradiction Td.
    2: { destruct Td as [-> _]. exfalso. apply (Nf ids). apply in_or_app. right. now left. }
    destruct (CircusFacts.emits_app_inv _ _ _ _ _ H) as (L1 & w1' & L2 & _ & H1 & H2).
    destruct (regrouped_emits _ _ _ _ H1 _ (to_flat w)) as (w1f & H1f & Rg1). destruct (regrouped_emits _ _ _ _ H2 _ Rg1) as (w2f & H2f & _).
    assert (w1f = w1). { rewrite (history_after _ _ _ (CircusFacts.emits_history _ _ _ _ H1f)). symmetry. exact (history_after _ _ _ Hb). } subst w1f.
    inversion H2f as [|y1 y2 l w3 y5 L' y7 Hx He|y1 y2 y3 y4 y5 y6 Hno]; subst; [|exfalso; exact (Hno _ eq_refl)].
    assert (Fw : fine (kinds (flatten w) c) (flatten w) w1).
    { refine (emits_fine _ _ _ _ _ _ _ _ F R' before _ _ L1 w1 Fs H1f). apply all_sensible. apply Forall_app in Hs as [Hs _]. exact Hs. }
    rewrite N3 in Td. destruct (told_spent _ _ _ _ _ _ _ _ F R' w1 l w3 a sim Na Fw Hx Td) as (Na3 & r & Hr & Hm).
    exists before, (HExec a :: rest), L1, w1', (l ++ L'), r. split; [reflexivity|]. split; [exact H1|]. split; [exact H2|].
    split; [cbn [executions]; rewrite N3 in E |- *; destruct (Nat.eqb_spec 3 a) as [K|_]; [congruence|exact E]|].
    split; [rewrite !records_app, !in_app_iff; tauto|exact Hm].
  Qed.

  Lemma topped_up_after_spending past L w1 l w2 r : Forall (sensible w) past -> (forall ids, ~ In (HForce (k_topups c) ids) past) -> emits w past L w1 ->
    execute (k_topups c) w1 = (Ok l, w2) -> In r (records "topups" l) ->
    exists before rest L1 w0 L2 spent, past = before ++ rest /\ emits w before L1 w0 /\ emits w0 rest L2 w1 /\ executions (k_topups c) rest = 0 /\
      (In spent (records "voice_cdr" L2) \/ In spent (records "sms_cdr" L2)) /\ spent "MSISDN_A"%string = r "CUSTOMER_NUMBER"%string.
  Proof.
    intros Hs Nf H Hx Hr. destruct (regrouped_emits _ _ _ _ H _ (to_flat w)) as (w1f & Hf & Rg).
    assert (He : emits w1 [HExec (k_topups c)] (l ++ []) w2) by (econstructor; [exact Hx|constructor]).
    destruct (regrouped_emits _ _ _ _ He _ Rg) as (w2f & Hef & _). rewrite app_nil_r in Hef.
    inversion Hef as [|y1 y2 lf w3 y5 L' y7 Hxf He2 E1 E2 E3|y1 y2 y3 y4 y5 y6 Hno]; subst; [|exfalso; exact (Hno _ eq_refl)]. inversion He2; subst. rewrite app_nil_r in Hr.
    assert (Fw : fine (kinds (flatten w) c) (flatten w) w1f) by (refine (emits_fine _ _ _ _ _ _ _ _ F R' past _ _ L w1f Fs Hf); now apply all_sensible).
    pose proof (exec_true _ _ _ _ _ _ _ _ F R' "topups" (k_topups c) w1f lf w2f Na Fw ltac:(now left) Hxf) as K. rewrite Forall_forall in K. specialize (K r Hr).
    change (a_topup w1f c r) in K. destruct K as (sim & old & value & A & Hm & _).
    assert (Rg' : regrouped_circus w1f w1).
    { destruct (regrouped_emits _ _ _ _ Hf _ (from_flat w)) as (w1' & H' & Rg'). assert (w1' = w1); [|congruence].
      rewrite (history_after _ _ _ (CircusFacts.emits_history _ _ _ _ H)). exact (history_after _ _ _ (CircusFacts.emits_history _ _ _ _ H')). }
    apply (regrouped_acts _ _ _ _ Rg') in A. apply (msisdn_holds _ _ _ _ _ _ _ _ F _ _ _ (fi_since _ _ _ Fw)) in Hm.
    destruct (spent_before past L w1 sim Hs Nf H A) as (before & rest & L1 & w0 & L2 & spent & E & H1 & H2 & E3 & Hsp & Hm').
    exists before, rest, L1, w0, L2, spent. split; [exact E|]. split; [exact H1|]. split; [exact H2|]. split; [exact E3|]. split; [exact Hsp|].
    destruct (ready_msisdn _ _ _ _ _ _ _ R) as (t & Et & Nt & _). destruct Hm as (t1 & Et1 & I1). destruct Hm' as (t2 & Et2 & I2).
    change (w_attrs (flatten w)) with (w_attrs w) in Et1. assert (t1 = t) by congruence. assert (t2 = t) by congruence. subst t1 t2.
    pose proof (In_dget _ _ _ Nt I1). pose proof (In_dget _ _ _ Nt I2). congruence.
  Qed.
  Lemma cdr_counted hs L w' m : numbers_differ w c -> Forall (sensible w) hs -> (forall ids, ~ In (HForce (k_topups c) ids) hs) -> emits w hs L w' ->
    toppings m L <= spendings m L.
  Proof.
    intros Nd Hs Nf H. destruct (regrouped_emits _ _ _ _ H _ (to_flat w)) as (wf & Hf & _). pose proof (all_sensible w hs Hs) as Hs'.
    destruct (Nat.eq_dec (toppings m L) 0) as [E|E]; [lia|].
    assert (X : exists sim, holds (flatten w) (k_msisdn c) sim m).
    { destruct (of_whom "CUSTOMER_NUMBER" m (records "topups" L)) as [|r rest] eqn:Er; [unfold toppings in E; rewrite Er in E; cbn in E; lia|].
      assert (Hr : In r (of_whom "CUSTOMER_NUMBER" m (records "topups" L))) by (rewrite Er; now left). apply filter_In in Hr as [Hr Em]. apply val_eqb_eq in Em.
      destruct (history_true _ _ _ _ _ _ _ _ F R' "topups" hs L wf Na ltac:(now left) Hs' Hf) as (pasts & K & _).
      apply In_nth_error in Hr as (k & Hk). destruct (Forall2_nth_error_r _ _ _ _ _ K Hk) as (p & _ & a & future & L1 & w1 & Eh & He & Tr). 
      change (a_topup w1 c r) in Tr. destruct Tr as (sim & old & value & _ & Hm & _). exists sim. rewrite <- Em.
      apply (msisdn_holds _ _ _ _ _ _ _ _ F w1); [|exact Hm]. rewrite Eh in Hs'. apply Forall_app in Hs' as [Hs' _]. exact (fi_since _ _ _ (emits_fine _ _ _ _ _ _ _ _ F R' p Hs' _ L1 w1 Fs He)). }
    destruct X as (sim & Hm). destruct (without_timer_quiet (flatten w) (k_topups c) sim (flatten_distinct _ D) (flatten_timer _ _ T)) as (v & Hv & Q & N). rewrite N3 in Q, N.
    pose proof (counted _ _ _ _ _ _ _ _ F R' Nd hs Na Hs' ltac:(intros ids; rewrite <- N3; apply Nf) v Hv sim m Hm (flatten w) L wf 0 (flatten_distinct _ D) Q Fs Hf ltac:(intros Y; contradiction)). lia.
  Qed.
End Circus.
