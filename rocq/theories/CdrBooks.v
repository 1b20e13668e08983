(** The logs and the accounts of tests/scenarios/test_cdr.py. *)
From Verif Require Import Base BaseFacts Rng Utils UtilsFacts Relationship RelationshipFacts SpecRelationship Frame Gens Clock SpecClock Attribute SpecAttribute AttributeFacts World Story Ops OpsFacts Helpers
  Circus SpecStory StoryFacts StoryExec SpecOps OpsProps OpsColumns OpsMore SpecCircus SpecPopulation SpecLocal LocalFacts SpecSupply SpecLedger LedgerProps SpecRecords RecordsProps SpecNow NowProps SpecJournal
  RowsProps SpecSafe SafeOps SafeRun SpecChains ChainsProps GeographyLog Geography Cdr SpecCdr CdrFacts CdrProps SpecCdrLogs CdrLogs.
From Coq Require Import Permutation Sorted.

(** What a generator gives later it could give from the start. *)
Lemma can_give_kept h0 h i : gens_kept h0 h -> never_refuses h0 i -> forall v, can_give h i v -> can_give h0 i v.
Proof.
  intros K N. induction N as [i v E|i s b E|i a s b E _|i a ps s b E _ _ _|i f s b E|i xmin fi lomax s E|i k prefix width E|i values k E|i p f E _ Np IH _|i p f E _ Np IH _|i p e E _ _ Np IHp Ne IHe _];
    intros u G; destruct (K i _ E) as (g' & E' & Sm); (destruct g' as [|m|m st bu|xm fo lo st|k0 pr wd|vals k0|cc prs wd fr ca po|p' f'|p' e']; cbn in Sm; try contradiction).
  all: repeat match goal with H : _ /\ _ |- _ => destruct H end; subst.
  all: inversion G; subst; match goal with A : nth_error ?hh ?k = Some ?g, B : nth_error ?hh ?k = Some ?g' |- _ => assert (Eg : g' = g) by congruence; clear B end.
  all: try discriminate Eg; try (injection Eg; intros; subst).
  all: try solve [econstructor; eassumption].
  - eapply give_mapped; eauto.
  - eapply give_mapped_vector; [eassumption| |eassumption|eassumption]. eapply Forall_impl; [|eassumption]. auto.
  - eapply give_bulk; [eassumption|apply IHp; eassumption|]. eapply Forall_impl; [|eassumption]. auto.
Qed.

Lemma two_times (q : Qc) : (q * Q2Qc (inject_Z 2) = q + q)%Qc.
Proof. replace (Q2Qc (inject_Z 2)) with (1 + 1)%Qc by (apply Qc_is_canon; reflexivity). ring. Qed.

Lemma less (a b : Qc) : (a - b = a + -(1) * b)%Qc.
Proof. ring. Qed.
Lemma more (a b : Qc) : (b + a = a + 1 * b)%Qc.
Proof. ring. Qed.

Section Books.
  Context (w0 : world) (c : cdr) (src : sources) (unhealthy healthy : nat) (subs sims cells : list val).
  Hypothesis F : flat_circus w0 c src unhealthy healthy subs sims cells.
  Hypothesis R : cdr_ready w0 c unhealthy healthy subs sims cells.
  Notation x := (k_main_acct c).

  Lemma account_not_health : Nat.eqb (k_health c) x = false.
  Proof. apply Nat.eqb_neq. intros E. pose proof (fc_distinct _ _ _ _ _ _ _ _ F) as N. rewrite !NoDup_cons_iff in N. cbn in N. intuition congruence. Qed.
  Lemma account_not_cell : Nat.eqb (k_cell c) x = false.
  Proof. apply Nat.eqb_neq. intros E. pose proof (fc_distinct _ _ _ _ _ _ _ _ F) as N. rewrite !NoDup_cons_iff in N. cbn in N. intuition congruence. Qed.

  Lemma others_checked id (ops : list op) : forallb (fun o => leaves x o && mute id o) ops = true -> Forall (fun o => leaves x o = true /\ mute id o = true) ops.
  Proof. intros H. apply Forall_forall. intros o Ho. rewrite forallb_forall in H. apply andb_true_iff. auto. Qed.

  Lemma calls_exec w l w' : since w0 w -> execute 4 w = (Ok l, w') ->
    exists s rows, nth_error (w_stories w) 4 = Some s /\ st_field s = "A_ID"%string /\ Forall2 (shows voice_columns) rows (records "voice_cdr" l) /\
      Forall (row_now w s (((compute_ab_fields c ++ compute_cell_status c) ++ calls_own c) ++ charging c :: consequences c)) rows /\
      overwritten x "SIM_A" "MAIN_ACCT_NEW" rows w w'.
  Proof.
    intros S H. destruct (fc_story _ _ _ _ _ _ _ _ F 4 _ _ _ eq_refl) as (s0 & Es0 & Ef & _ & judge & Eo). rewrite calls_flat in Eo.
    unshelve epose proof (exec_rows w0 4 s0 x "SIM_A" "MAIN_ACCT_NEW" "voice_cdr" voice_columns ((compute_ab_fields c ++ compute_cell_status c) ++ calls_own c) (consequences c) [OpBack 4 judge]
      (ab_columns ++ ["PRODUCT"; "DURATION"; "VALUE"; "MAIN_ACCT_NEW"]%string)
      ((ab_columns ++ ["PRODUCT"; "DURATION"; "VALUE"; "MAIN_ACCT_NEW"]%string) ++ ["SHOULD_TOP_UP"; "A_GETTING_BURSTY"; "B_GETTING_BURSTY"]%string) Es0 _ _ _ _ _ _ _ _ w l w' S H) as (s & rows & K).
    - rewrite Eo. rewrite <- !app_assoc. reflexivity.
    - rewrite Ef. exact (builds_up_app _ _ _ _ _ (ab_builds c) (calls_builds c)).
    - exact (calls_follow c).
    - exact (calls_widen c).
    - apply mem_In. reflexivity.
    - apply mem_In. reflexivity.
    - split; [apply incl_check; reflexivity|discriminate].
    - apply others_checked. reflexivity.
    - exists s, rows. rewrite Ef in K. exact K.
  Qed.
  Lemma sms_exec w l w' : since w0 w -> execute 5 w = (Ok l, w') ->
    exists s rows, nth_error (w_stories w) 5 = Some s /\ st_field s = "A_ID"%string /\ Forall2 (shows sms_columns) rows (records "sms_cdr" l) /\
      Forall (row_now w s (((compute_ab_fields c ++ compute_cell_status c) ++ sms_own c) ++ charging c :: consequences c)) rows /\
      overwritten x "SIM_A" "MAIN_ACCT_NEW" rows w w'.
  Proof.
    intros S H. destruct (fc_story _ _ _ _ _ _ _ _ F 5 _ _ _ eq_refl) as (s0 & Es0 & Ef & _ & judge & Eo). rewrite sms_flat in Eo.
    unshelve epose proof (exec_rows w0 5 s0 x "SIM_A" "MAIN_ACCT_NEW" "sms_cdr" sms_columns ((compute_ab_fields c ++ compute_cell_status c) ++ sms_own c) (consequences c) [OpBack 5 judge]
      (ab_columns ++ ["PRODUCT"; "VALUE"; "MAIN_ACCT_NEW"]%string)
      ((ab_columns ++ ["PRODUCT"; "VALUE"; "MAIN_ACCT_NEW"]%string) ++ ["SHOULD_TOP_UP"; "A_GETTING_BURSTY"; "B_GETTING_BURSTY"]%string) Es0 _ _ _ _ _ _ _ _ w l w' S H) as (s & rows & K).
    - rewrite Eo. rewrite <- !app_assoc. reflexivity.
    - rewrite Ef. exact (builds_up_app _ _ _ _ _ (ab_builds c) (sms_builds c)).
    - exact (sms_follow c).
    - exact (sms_widen c).
    - apply mem_In. reflexivity.
    - apply mem_In. reflexivity.
    - split; [apply incl_check; reflexivity|discriminate].
    - apply others_checked. reflexivity.
    - exists s, rows. rewrite Ef in K. exact K.
  Qed.
  Lemma topups_exec w l w' : since w0 w -> execute 3 w = (Ok l, w') ->
    exists s rows, nth_error (w_stories w) 3 = Some s /\ st_field s = "SIM_ID"%string /\ Forall2 (shows topup_columns) rows (records "topups" l) /\
      Forall (row_now w s (topup_own c ++ crediting c :: [OpTimestamp "TIME" true (k_fmt c)])) rows /\
      overwritten x "SIM_ID" "MAIN_ACCT" rows w w'.
  Proof.
    intros S H. destruct (fc_story _ _ _ _ _ _ _ _ F 3 _ _ _ eq_refl) as (s0 & Es0 & Ef & _ & judge & Eo). rewrite topups_flat in Eo.
    unshelve epose proof (exec_rows w0 3 s0 x "SIM_ID" "MAIN_ACCT" "topups" topup_columns (topup_own c) [OpTimestamp "TIME" true (k_fmt c)] [OpBack 3 judge]
      topup_known (topup_known ++ ["TIME"%string]) Es0 _ _ _ _ _ _ _ _ w l w' S H) as (s & rows & K).
    - rewrite Eo. repeat rewrite <- app_assoc. reflexivity.
    - rewrite Ef. exact (topup_builds c).
    - exact (topup_follow c).
    - exact (topup_widen c).
    - apply mem_In. reflexivity.
    - apply mem_In. reflexivity.
    - split; [apply incl_check; reflexivity|discriminate].
    - apply others_checked. reflexivity.
    - exists s, rows. rewrite Ef in K. exact K.
  Qed.

  (** Stories 0, 1 and 2 change no accounts; only stories 3, 4 and 5 write the three logs. *)
  Definition logged_by (id : string) : nat := if String.eqb id "topups" then 3 else if String.eqb id "voice_cdr" then 4 else 5.
  Lemma ops_of a s : nth_error (w_stories w0) a = Some s -> exists field members ops judge, nth_error (flat_stories c src unhealthy healthy subs sims cells) a = Some (field, members, ops) /\ st_ops s = ops ++ [OpBack a judge].
  Proof.
    intros E. destruct (story_is _ _ _ _ _ _ _ _ F _ _ E) as (field & members & ops & X & _ & _ & _ & judge & Eo). exists field, members, ops, judge. auto.
  Qed.
  Lemma silent_exec id a w l w' : In id ["topups"; "voice_cdr"; "sms_cdr"]%string -> a <> logged_by id -> since w0 w -> execute a w = (Ok l, w') -> records id l = [].
  Proof.
    intros Hid Ha S H. pose proof H as H0. apply execute_ok in H0 as (s & Es & _). destruct (story_then w0 w a S s Es) as (s0 & Es0 & _).
    apply (exec_silent w0 a s0 Es0 id w l w' S); [|exact H]. destruct (ops_of _ _ Es0) as (field & members & ops & judge & X & Eo). rewrite Eo.
    assert (K : forallb (mute id) ops = true).
    { destruct a as [|[|[|[|[|[|a]]]]]]; cbn [nth_error flat_stories] in X; try (injection X as _ _ <-); destruct Hid as [<-|[<-|[<-|[]]]]; try reflexivity; try (exfalso; apply Ha; reflexivity); destruct a; discriminate. }
    rewrite forallb_forall in K. intros o Ho. apply in_app_iff in Ho as [Ho|[<-|[]]]; [auto|reflexivity].
  Qed.
  Lemma idle_exec a w l w' : a < 3 -> since w0 w -> execute a w = (Ok l, w') -> same (OAttribute x) w w'.
  Proof.
    intros La S H. pose proof H as H0. apply execute_ok in H0 as (s & Es & _). destruct (story_then w0 w a S s Es) as (s0 & Es0 & _).
    apply (exec_same w0 a s0 Es0 x w l w' S); [|exact H]. destruct (ops_of _ _ Es0) as (field & members & ops & judge & X & Eo). rewrite Eo.
    assert (K : forallb (leaves x) ops = true).
    { destruct a as [|[|[|a]]]; [| | |lia]; cbn [nth_error flat_stories] in X; injection X as _ _ <-; cbn -[Nat.eqb]; rewrite ?account_not_health, ?account_not_cell; reflexivity. }
    rewrite forallb_forall in K. intros o Ho. apply in_app_iff in Ho as [Ho|[<-|[]]]; [auto|reflexivity].
  Qed.

  (** ** The rows *)
  Lemma told_prefix w s pre more row o : row_now w s (pre ++ more) row -> forallb still pre = true -> In o pre -> told_of w o row.
  Proof. intros H B Ho. pose proof (still_told w s pre more row H B) as T. rewrite Forall_forall in T. auto. Qed.

  Section Now.
    Context (w : world).
    Hypothesis Fw : fine (kinds w0 c) w0 w.
    Lemma gives_now g v : can_give (w_gens w) g v -> gives_numbers w0 g -> a_number v.
    Proof. intros H (N & K). apply K. exact (can_give_kept _ _ _ (sc_gens _ _ (fi_since _ _ _ Fw)) N _ H). Qed.
    Lemma acct_number k v : holds w x k v -> a_number v.
    Proof. intros (t & Et & Hin). pose proof (fi_kinds _ _ _ Fw x t k v Et Hin) as [_ K]. apply K. cbn. tauto. Qed.

    Lemma call_row s row r : ~ In VNA subs -> nth_error (w_stories w) 4 = Some s -> st_field s = "A_ID"%string ->
      row_now w s (((compute_ab_fields c ++ compute_cell_status c) ++ calls_own c) ++ charging c :: consequences c) row -> shows voice_columns row r ->
      a_call w c r /\ holds w (k_msisdn c) (row "SIM_A"%string) (row "MSISDN_A"%string) /\
      exists old v, holds w x (row "SIM_A"%string) (VNum old) /\ row "VALUE"%string = VNum v /\ row "MAIN_ACCT_NEW"%string = VNum (old + -(1) * v)%Qc.
    Proof.
      intros Na Es Ef Hr Hs.
      assert (Hs' : shows shared_columns row r) by (intros n Hn; apply Hs; revert n Hn; apply incl_check; reflexivity).
      assert (Hr' : row_now w s ((compute_ab_fields c ++ compute_cell_status c) ++ calls_own c ++ charging c :: consequences c) row) by (rewrite app_assoc; exact Hr).
      destruct (connects_row w0 c src unhealthy healthy subs sims cells F R w Fw 4 s _ row r Es Ef Na Hr' Hs') as (Cn & Hm & Ha).
      assert (T : forall o, In o (calls_own c) -> told_of w o row) by (intros o Ho; refine (told_prefix w s _ _ row o Hr eq_refl _); apply in_or_app; now right).
      pose proof (T _ (or_introl eq_refl)) as T1. pose proof (T _ (or_intror (or_introl eq_refl))) as T2. pose proof (T _ (or_intror (or_intror (or_introl eq_refl)))) as T3.
      pose proof (T _ (or_intror (or_intror (or_intror (or_introl eq_refl))))) as T4. unfold told_of in T1, T2, T3, T4. cbn [tells_given] in T1, T2, T3, T4.
      destruct (ready_gens _ _ _ _ _ _ _ R) as (_ & _ & _ & Gd & _). destruct (gives_now _ _ T2 Gd) as (q & Eq).
      pose proof (proj2 T3 _ call_value_rows) as V. cbn [map nth] in V. rewrite Eq in V. cbn [arith vz] in V. injection V as V.
      destruct (acct_number _ _ Ha) as (old & Eold). pose proof (proj2 T4 _ (np_binary_rows Qcminus _)) as W. cbn [map computed] in W. rewrite Eold, V in W. cbn [arith] in W. injection W as W.
      assert (Ev : row "VALUE"%string = VNum (q + q)) by (rewrite V, two_times; reflexivity).
      split; [|split; [exact Hm|]].
      - split; [exists (row "A_ID"%string), (row "B_ID"%string); destruct (fc_numbers _ _ _ _ _ _ _ _ F) as (_ & -> & _); exact Cn|].
        assert (Er : r "PRODUCT"%string = row "PRODUCT"%string /\ r "DURATION"%string = row "DURATION"%string /\ r "VALUE"%string = row "VALUE"%string) by (repeat split; apply Hs; apply mem_In; reflexivity).
        destruct Er as (-> & -> & ->). split; [exact T1|]. split; [exact T2|]. exists q. split; [exact Eq|exact Ev].
      - eexists old, _. rewrite <- Eold. split; [exact Ha|]. split; [exact V|]. rewrite W, less. reflexivity.
    Qed.

    Lemma sms_row s row r : ~ In VNA subs -> nth_error (w_stories w) 5 = Some s -> st_field s = "A_ID"%string ->
      row_now w s (((compute_ab_fields c ++ compute_cell_status c) ++ sms_own c) ++ charging c :: consequences c) row -> shows sms_columns row r ->
      a_message w c r /\ holds w (k_msisdn c) (row "SIM_A"%string) (row "MSISDN_A"%string) /\
      exists old v, holds w x (row "SIM_A"%string) (VNum old) /\ row "VALUE"%string = VNum v /\ row "MAIN_ACCT_NEW"%string = VNum (old + -(1) * v)%Qc.
    Proof.
      intros Na Es Ef Hr Hs.
      assert (Hs' : shows shared_columns row r) by (intros n Hn; apply Hs; revert n Hn; apply incl_check; reflexivity).
      assert (Hr' : row_now w s ((compute_ab_fields c ++ compute_cell_status c) ++ sms_own c ++ charging c :: consequences c) row) by (rewrite app_assoc; exact Hr).
      destruct (connects_row w0 c src unhealthy healthy subs sims cells F R w Fw 5 s _ row r Es Ef Na Hr' Hs') as (Cn & Hm & Ha).
      assert (T : forall o, In o (sms_own c) -> told_of w o row) by (intros o Ho; refine (told_prefix w s _ _ row o Hr eq_refl _); apply in_or_app; now right).
      pose proof (T _ (or_introl eq_refl)) as T1. pose proof (T _ (or_intror (or_introl eq_refl))) as T3.
      pose proof (T _ (or_intror (or_intror (or_introl eq_refl)))) as T4. unfold told_of in T1, T3, T4. cbn [tells_given] in T1, T3, T4.
      pose proof (proj2 T3 _ (sms_value_rows _)) as V. cbn [map nth] in V. injection V as V.
      destruct (acct_number _ _ Ha) as (old & Eold). pose proof (proj2 T4 _ (np_binary_rows Qcminus _)) as W. cbn [map computed] in W. rewrite Eold, V in W. cbn [arith vz] in W. injection W as W.
      split; [|split; [exact Hm|]].
      - split; [exists (row "A_ID"%string), (row "B_ID"%string); destruct (fc_numbers _ _ _ _ _ _ _ _ F) as (_ & _ & ->); exact Cn|].
        assert (Er : r "PRODUCT"%string = row "PRODUCT"%string /\ r "VALUE"%string = row "VALUE"%string) by (repeat split; apply Hs; apply mem_In; reflexivity).
        destruct Er as (-> & ->). split; [exact T1|exact V].
      - eexists old, _. rewrite <- Eold. split; [exact Ha|]. split; [exact V|]. rewrite W, less. reflexivity.
    Qed.

    Lemma topup_row s row r : nth_error (w_stories w) 3 = Some s -> st_field s = "SIM_ID"%string -> st_ids s = sims ->
      row_now w s (topup_own c ++ crediting c :: [OpTimestamp "TIME" true (k_fmt c)]) row -> shows topup_columns row r ->
      a_topup w c r /\ holds w (k_msisdn c) (row "SIM_ID"%string) (row "CUSTOMER_NUMBER"%string) /\
      exists old v, holds w x (row "SIM_ID"%string) (VNum old) /\ row "VALUE"%string = VNum v /\ row "MAIN_ACCT"%string = VNum (old + 1 * v)%Qc.
    Proof.
      intros Es Ef Ei Hr Hs. pose proof (proj2 Hr) as Acts. rewrite Ef in Acts.
      assert (Time : at_that_time w c (row "TIME"%string)).
      { destruct Hr as [K _]. specialize (K (topup_own c ++ [crediting c]) _ [] eq_refl). unfold tells_now in K. cbn [tells_given] in K. exact K. }
      assert (Hin : In (row "SIM_ID"%string) sims).
      { rewrite <- Ei. unfold due_members in Acts. unfold st_ids, dkeys. apply in_map_iff in Acts as (y & <- & Hy). apply filter_In in Hy as [Hy _]. now apply in_map. }
      pose proof (still_told w s _ _ _ Hr eq_refl) as Tl.
      assert (Pl : forall l, row "SIM_ID"%string <> VList l) by (intros l; apply (plain_id w0 c unhealthy healthy subs sims cells R); tauto).
      destruct (fc_attributes _ _ _ _ _ _ _ _ F) as (_ & _ & A3 & A4 & A5 & _).
      pose proof (ready_operator _ _ _ _ _ _ _ R) as F3. pose proof (ready_msisdn _ _ _ _ _ _ _ R) as F4. pose proof (ready_main_acct _ _ _ _ _ _ _ R) as F5.
      assert (I0 : In (nth 0 (cdr_topups c) (OpDropRow "")) (topup_own c)) by now left. cbn [nth cdr_topups] in I0.
      destruct (lookup_one w0 c w Fw (topup_own c) row Tl _ _ _ "MSISDN" "CUSTOMER_NUMBER" _ _ _ I0 ltac:(cbn; tauto) A4 F4 Pl) as (Hm & _).
      destruct (lookup_one w0 c w Fw (topup_own c) row Tl _ _ _ "OPERATOR" "OPERATOR" _ _ _ I0 ltac:(cbn; tauto) A3 F3 Pl) as (Ho & _).
      destruct (lookup_one w0 c w Fw (topup_own c) row Tl _ _ _ "MAIN_ACCT" "MAIN_ACCT_OLD" _ _ _ I0 ltac:(cbn; tauto) A5 F5 Pl) as (Ha & _).
      rewrite Forall_forall in Tl. pose proof (Tl _ (or_intror (or_introl eq_refl))) as T2. pose proof (Tl _ (or_intror (or_intror (or_introl eq_refl)))) as T3.
      pose proof (Tl _ (or_intror (or_intror (or_intror (or_introl eq_refl))))) as T4. unfold told_of in T2, T3, T4. cbn [tells_given] in T2, T3, T4.
      destruct (ready_gens _ _ _ _ _ _ _ R) as (_ & _ & Gr & _). destruct (gives_now _ _ T3 Gr) as (q & Eq).
      destruct (acct_number _ _ Ha) as (old & Eold). pose proof (proj2 T4 _ (np_binary_rows Qcplus _)) as W. cbn [map computed] in W. rewrite Eold, Eq in W. cbn [arith] in W. injection W as W.
      assert (Er : r "TIME"%string = row "TIME"%string /\ r "CUSTOMER_NUMBER"%string = row "CUSTOMER_NUMBER"%string /\ r "AGENT"%string = row "AGENT"%string /\ r "VALUE"%string = row "VALUE"%string /\
        r "OPERATOR"%string = row "OPERATOR"%string /\ r "MAIN_ACCT_OLD"%string = row "MAIN_ACCT_OLD"%string /\ r "MAIN_ACCT"%string = row "MAIN_ACCT"%string) by (repeat split; apply Hs; apply mem_In; reflexivity).
      destruct Er as (E1 & E2 & E3 & E4 & E5 & E6 & E7).
      split; [|split; [exact Hm|]].
      - exists (row "SIM_ID"%string), old, q. destruct (fc_numbers _ _ _ _ _ _ _ _ F) as (-> & _). rewrite E1, E2, E3, E4, E5, E6, E7. split; [exists s; auto|].
        split; [exact Hm|]. split; [exact Ho|]. split; [destruct (T2 I) as [K|(_ & K1 & K2)]; auto|]. split; [exact T3|]. split; [exact Eq|]. split; [now rewrite <- Eold|]. split; [exact Eold|].
        split; [rewrite W, Qcplus_comm; reflexivity|exact Time].
      - exists old, q. rewrite <- Eold. split; [exact Ha|]. split; [exact Eq|]. rewrite W, more. reflexivity.
    Qed.
  End Now.

  Lemma since_ids w a s field members ops : since w0 w -> nth_error (w_stories w) a = Some s -> nth_error (flat_stories c src unhealthy healthy subs sims cells) a = Some (field, members, ops) -> st_ids s = members.
  Proof.
    intros S Es X. destruct (story_then w0 w a S s Es) as (s0 & Es0 & T). pose proof T as (_ & _ & _ & _ & _ & _ & _ & _ & Ti). rewrite Ti.
    destruct (fc_story _ _ _ _ _ _ _ _ F _ _ _ _ X) as (s1 & Es1 & _ & Ei & _). congruence.
  Qed.

  (** ** Executions *)
  Definition truth_of (id : string) : world -> cdr -> record -> Prop :=
    if String.eqb id "topups" then a_topup else if String.eqb id "voice_cdr" then a_call else a_message.
  Lemma exec_true id a w l w' : ~ In VNA subs -> fine (kinds w0 c) w0 w -> In id ["topups"; "voice_cdr"; "sms_cdr"]%string -> execute a w = (Ok l, w') -> Forall (truth_of id w c) (records id l).
  Proof.
    intros Na Fw Hid H. pose proof (fi_since _ _ _ Fw) as S.
    destruct (Nat.eq_dec a (logged_by id)) as [->|Ne]; [|rewrite (silent_exec id a w l w' Hid Ne S H); constructor].
    destruct Hid as [<-|[<-|[<-|[]]]]; cbn [logged_by String.eqb Ascii.eqb Bool.eqb] in H; unfold truth_of; cbn [String.eqb Ascii.eqb Bool.eqb].
    - destruct (topups_exec w l w' S H) as (s & rows & Es & Ef & Sh & Rn & _). apply Forall_forall. intros r Hr. destruct (shown_in _ _ _ _ Sh Hr) as (row & Hin & Hs). rewrite Forall_forall in Rn.
      refine (proj1 (topup_row w Fw s row r Es Ef _ (Rn _ Hin) Hs)). exact (since_ids w 3 s _ _ _ S Es eq_refl).
    - destruct (calls_exec w l w' S H) as (s & rows & Es & Ef & Sh & Rn & _). apply Forall_forall. intros r Hr. destruct (shown_in _ _ _ _ Sh Hr) as (row & Hin & Hs). rewrite Forall_forall in Rn.
      exact (proj1 (call_row w Fw s row r Na Es Ef (Rn _ Hin) Hs)).
    - destruct (sms_exec w l w' S H) as (s & rows & Es & Ef & Sh & Rn & _). apply Forall_forall. intros r Hr. destruct (shown_in _ _ _ _ Sh Hr) as (row & Hin & Hs). rewrite Forall_forall in Rn.
      exact (proj1 (sms_row w Fw s row r Na Es Ef (Rn _ Hin) Hs)).
  Qed.

  (** ** Accounts *)
  Definition balance (m : val) (L : logs) (q : Qc) : Qc :=
    (q + sum_of "CUSTOMER_NUMBER" m (records "topups" L) - sum_of "MSISDN_A" m (records "voice_cdr" L) - sum_of "MSISDN_A" m (records "sms_cdr" L))%Qc.
  Definition balanced (w : world) (L : logs) (w' : world) : Prop :=
    single_valued w x -> single_valued w' x /\ forall sim m q, holds w0 (k_msisdn c) sim m -> holds w x sim (VNum q) -> holds w' x sim (VNum (balance m L q)).

  Lemma msisdn_steady : steady_attribute w0 (k_msisdn c).
  Proof.
    intros a s o Es Ho. apply leaves_changes. destruct (ops_of _ _ Es) as (field & members & ops & judge & X & Eo). rewrite Eo in Ho.
    pose proof (fc_distinct _ _ _ _ _ _ _ _ F) as N. rewrite !NoDup_cons_iff in N. cbn [In] in N.
    assert (N1 : Nat.eqb (k_health c) (k_msisdn c) = false) by (apply Nat.eqb_neq; intuition congruence).
    assert (N2 : Nat.eqb (k_cell c) (k_msisdn c) = false) by (apply Nat.eqb_neq; intuition congruence).
    assert (N3 : Nat.eqb x (k_msisdn c) = false) by (apply Nat.eqb_neq; intuition congruence).
    assert (K : forallb (leaves (k_msisdn c)) ops = true).
    { destruct a as [|[|[|[|[|[|a]]]]]]; cbn [nth_error flat_stories] in X; try (injection X as _ _ <-); try (cbn -[Nat.eqb]; rewrite ?N1, ?N2, ?N3; reflexivity). destruct a; discriminate. }
    rewrite forallb_forall in K. apply in_app_iff in Ho as [Ho|[<-|[]]]; [auto|reflexivity].
  Qed.
  Lemma msisdn_holds w sim m : since w0 w -> holds w (k_msisdn c) sim m <-> holds w0 (k_msisdn c) sim m.
  Proof. intros S. pose proof (sc_attrs _ _ S _ msisdn_steady) as E. cbn in E. unfold holds. rewrite E. tauto. Qed.

  Lemma exec_balanced a w l w' : ~ In VNA subs -> numbers_differ w0 c -> fine (kinds w0 c) w0 w -> execute a w = (Ok l, w') -> balanced w l w'.
  Proof.
    intros Na Nd Fw H Sv. pose proof (fi_since _ _ _ Fw) as S.
    assert (Sn : single_valued w (k_msisdn c)).
    { pose proof (sc_attrs _ _ S _ msisdn_steady) as E. cbn in E. destruct (ready_msisdn _ _ _ _ _ _ _ R) as (t & Et & Nt & _). exists t. now rewrite E. }
    assert (Inj : forall sim sim' m, holds w (k_msisdn c) sim m -> holds w (k_msisdn c) sim' m -> sim = sim').
    { intros sim sim' m. rewrite !(msisdn_holds w _ _ S). apply Nd. }
    assert (Quiet : forall id, In id ["topups"; "voice_cdr"; "sms_cdr"]%string -> a <> logged_by id -> records id l = []) by (intros id Hid Ha; exact (silent_exec id a w l w' Hid Ha S H)).
    unfold balance.
    destruct (lt_dec a 3) as [La|La].
    - rewrite !Quiet by (cbn; (tauto || lia)). pose proof (idle_exec a w l w' La S H) as E. cbn in E. split; [unfold single_valued; now rewrite E|].
      intros sim m q _ Hq. unfold holds in *. rewrite E. unfold sum_of. cbn [filter map total]. replace (q + 0 - 0 - 0)%Qc with q by ring. exact Hq.
    - destruct (Nat.eq_dec a 3) as [->|N3]; [|destruct (Nat.eq_dec a 4) as [->|N4]].
      + rewrite (Quiet "voice_cdr"%string), (Quiet "sms_cdr"%string) by (cbn; (tauto || lia)). destruct (topups_exec w l w' S H) as (s & rows & Es & Ef & Sh & Rn & Ov).
        destruct (posted x (k_msisdn c) _ _ "CUSTOMER_NUMBER" topup_columns rows (records "topups" l) w w' 1%Qc Ov Sv Sn Sh) as (Sv' & K).
        * apply mem_In. reflexivity.
        * apply mem_In. reflexivity.
        * intros row Hin. rewrite Forall_forall in Rn. exact (proj2 (topup_row w Fw s row row Es Ef (since_ids w 3 s _ _ _ S Es eq_refl) (Rn _ Hin) (fun n _ => eq_refl))).
        * exact Inj.
        * split; [exact Sv'|]. intros sim m q Hm Hq. specialize (K sim m q (proj2 (msisdn_holds w sim m S) Hm) Hq). unfold sum_of at 2 3. cbn [filter map total].
          replace (q + sum_of "CUSTOMER_NUMBER" m (records "topups" l) - 0 - 0)%Qc with (q + 1 * sum_of "CUSTOMER_NUMBER" m (records "topups" l))%Qc by ring. exact K.
      + rewrite (Quiet "topups"%string), (Quiet "sms_cdr"%string) by (cbn; (tauto || lia)). destruct (calls_exec w l w' S H) as (s & rows & Es & Ef & Sh & Rn & Ov).
        destruct (posted x (k_msisdn c) _ _ "MSISDN_A" voice_columns rows (records "voice_cdr" l) w w' (-(1))%Qc Ov Sv Sn Sh) as (Sv' & K).
        * apply mem_In. reflexivity.
        * apply mem_In. reflexivity.
        * intros row Hin. rewrite Forall_forall in Rn. exact (proj2 (call_row w Fw s row row Na Es Ef (Rn _ Hin) (fun n _ => eq_refl))).
        * exact Inj.
        * split; [exact Sv'|]. intros sim m q Hm Hq. specialize (K sim m q (proj2 (msisdn_holds w sim m S) Hm) Hq). unfold sum_of at 1 3. cbn [filter map total].
          replace (q + 0 - sum_of "MSISDN_A" m (records "voice_cdr" l) - 0)%Qc with (q + -(1) * sum_of "MSISDN_A" m (records "voice_cdr" l))%Qc by ring. exact K.
      + destruct (Nat.eq_dec a 5) as [->|N5].
        * rewrite (Quiet "topups"%string), (Quiet "voice_cdr"%string) by (cbn; (tauto || lia)). destruct (sms_exec w l w' S H) as (s & rows & Es & Ef & Sh & Rn & Ov).
          destruct (posted x (k_msisdn c) _ _ "MSISDN_A" sms_columns rows (records "sms_cdr" l) w w' (-(1))%Qc Ov Sv Sn Sh) as (Sv' & K).
          -- apply mem_In. reflexivity.
          -- apply mem_In. reflexivity.
          -- intros row Hin. rewrite Forall_forall in Rn. exact (proj2 (sms_row w Fw s row row Na Es Ef (Rn _ Hin) (fun n _ => eq_refl))).
          -- exact Inj.
          -- split; [exact Sv'|]. intros sim m q Hm Hq. specialize (K sim m q (proj2 (msisdn_holds w sim m S) Hm) Hq). unfold sum_of at 1 2. cbn [filter map total].
             replace (q + 0 - 0 - sum_of "MSISDN_A" m (records "sms_cdr" l))%Qc with (q + -(1) * sum_of "MSISDN_A" m (records "sms_cdr" l))%Qc by ring. exact K.
        * exfalso. apply execute_ok in H as (s & Es & _). destruct (story_then w0 w a S s Es) as (s0 & Es0 & _). pose proof (fc_all _ _ _ _ _ _ _ _ F _ _ Es0). lia.
  Qed.

  (** ** Histories *)
  Lemma emits_fine hs : Forall (sensible w0) hs -> forall w L w', fine (kinds w0 c) w0 w -> emits w hs L w' -> fine (kinds w0 c) w0 w'.
  Proof.
    pose proof (flat_well_formed_with _ _ _ _ _ _ _ _ F R) as Wf.
    induction 1 as [|h hs Hh _ IH]; intros w L w' Fw H.
    - inversion H; subst. exact Fw.
    - inversion H as [|y1 a l w1 y5 L' y7 Hx He|y1 y2 w1 y4 y5 y6 Hno Hh1 He]; subst.
      + destruct (execute_runs _ _ Wf a w Hh Fw) as (l1 & w2 & E & F2). rewrite Hx in E. injection E as <- <-. exact (IH _ _ _ F2 He).
      + destruct (happening_runs _ _ Wf h w Hh Fw) as (w2 & E & F2). rewrite Hh1 in E. injection E as <-. exact (IH _ _ _ F2 He).
  Qed.
  Lemma emits_balanced hs : ~ In VNA subs -> numbers_differ w0 c -> Forall (sensible w0) hs -> forall w L w', fine (kinds w0 c) w0 w -> emits w hs L w' -> balanced w L w'.
  Proof.
    intros Na Nd Hs. pose proof (flat_well_formed_with _ _ _ _ _ _ _ _ F R) as Wf.
    induction Hs as [|h hs Hh _ IH]; intros w L w' Fw H Sv.
    - inversion H; subst. split; [exact Sv|]. intros sim m q _ Hq. unfold balance, records, sum_of. cbn [frames_of filter map flat_map total]. replace (q + 0 - 0 - 0)%Qc with q by ring. exact Hq.
    - inversion H as [|y1 a l w1 y5 L' y7 Hx He|y1 y2 w1 y4 y5 y6 Hno Hh1 He]; subst.
      + destruct (execute_runs _ _ Wf a w Hh Fw) as (l1 & w2 & E & F2). rewrite Hx in E. injection E as <- <-.
        destruct (exec_balanced a w l w1 Na Nd Fw Hx Sv) as (Sv1 & K1). destruct (IH _ _ _ F2 He Sv1) as (Sv2 & K2). split; [exact Sv2|].
        intros sim m q Hm Hq. pose proof (K2 _ _ _ Hm (K1 _ _ _ Hm Hq)) as K. unfold balance in *. rewrite !records_app, !sum_app.
        match type of K with holds _ _ _ (VNum ?p) => match goal with |- holds _ _ _ (VNum ?p') => replace p' with p by ring end end. exact K.
      + destruct (happening_runs _ _ Wf h w Hh Fw) as (w2 & E & F2). rewrite Hh1 in E. injection E as <-.
        pose proof (other_fields h w w1 Hno Hh1) as (_ & _ & _ & Ea).
        assert (Sv1 : single_valued w1 x) by (unfold single_valued; now rewrite Ea). destruct (IH _ _ _ F2 He Sv1) as (Sv2 & K2). split; [exact Sv2|].
        intros sim m q Hm Hq. apply (K2 _ _ _ Hm). unfold holds. now rewrite Ea.
  Qed.

  Lemma history_true id hs L w' : ~ In VNA subs -> In id ["topups"; "voice_cdr"; "sms_cdr"]%string -> Forall (sensible w0) hs -> emits w0 hs L w' ->
    exists pasts, Forall2 (fun p r => exists a future L1 w1, hs = p ++ HExec a :: future /\ emits w0 p L1 w1 /\ truth_of id w1 c r) pasts (records id L) /\ StronglySorted earlier pasts.
  Proof.
    intros Na Hid Hs H. pose proof (flat_well_formed_with _ _ _ _ _ _ _ _ F R) as Wf. pose proof (fine_start _ _ Wf) as Fs.
    destruct (history_each w0 id (fun w a r => fine (kinds w0 c) w0 w -> truth_of id w c r)) with (hs := hs) (past := @nil happening) (L0 := @nil (string * df)) (w := w0) (L := L) (w' := w') as (pasts & K1 & K2 & _).
    - intros a w l w1 S Hx. apply Forall_forall. intros r Hr Fw. pose proof (exec_true id a w l w1 Na Fw Hid Hx) as K. rewrite Forall_forall in K. auto.
    - exact (fi_since _ _ _ Fs).
    - constructor.
    - exact H.
    - exists pasts. split; [|exact K2]. eapply Forall2_weaken; [|exact K1]. intros p r (a & future & L1 & w1 & E & He & K). cbn [app] in E. exists a, future, L1, w1. split; [exact E|]. split; [exact He|].
      apply K. refine (emits_fine p _ w0 L1 w1 Fs He). rewrite E in Hs. apply Forall_app in Hs as [Hs _]. exact Hs.
  Qed.
End Books.

(** ** With chains *)
Lemma Forall2_nth_error_l {A B} (P : A -> B -> Prop) l l' i a : Forall2 P l l' -> nth_error l i = Some a -> exists b, nth_error l' i = Some b /\ P a b.
Proof. intros H. revert i. induction H as [|a' b l l' K _ IH]; intros [|i] E; try discriminate; cbn in E |- *; [injection E as <-; eauto|auto]. Qed.
Lemma truth_regrouped id w w' c r : regrouped_circus w w' -> truth_of id w c r -> truth_of id w' c r.
Proof.
  intros (stories & -> & F).
  assert (A : forall a i, acts_now w a i -> acts_now (set_stories stories w) a i).
  { intros a i (s & Es & Hi). destruct (Forall2_nth_error_l _ _ _ _ _ F Es) as (s' & Es' & ops & -> & _). exists (with_ops s ops). split; [exact Es'|exact Hi]. }
  assert (Cn : forall a i j, connects w c a r i j -> connects (set_stories stories w) c a r i j) by (intros a i j []; constructor; try assumption; auto).
  unfold truth_of. destruct (String.eqb id "topups"); [|destruct (String.eqb id "voice_cdr")].
  - intros (sim & old & value & H & K). exists sim, old, value. split; [now apply A|exact K].
  - intros ((i & j & H) & K). split; [exists i, j; auto|exact K].
  - intros ((i & j & H) & K). split; [exists i, j; auto|exact K].
Qed.
Lemma part_flat o' o : part_of o' o -> (forall l, o' <> OpChain l) -> In o' (flat o).
Proof.
  induction 1 as [|ops o1 Hin P IH]; intros N; [destruct o'; try (now left); exfalso; exact (N _ eq_refl)|]. cbn [flat]. apply in_flat_map. eauto.
Qed.

Section Circus.
  Context (w : world) (c : cdr) (src : sources) (unhealthy healthy : nat) (subs sims cells : list val).
  Hypothesis C : cdr_circus w c src unhealthy healthy subs sims cells.
  Hypothesis R : cdr_ready w c unhealthy healthy subs sims cells.
  Let F := flat_of _ _ _ _ _ _ _ _ C.
  Let R' := ready_flat _ _ _ _ _ _ _ _ C R.
  Lemma to_flat : regrouped_circus w (flatten w).
  Proof. exact (regrouped_flatten w). Qed.
  Lemma from_flat : regrouped_circus (flatten w) w.
  Proof. apply regrouped_circus_flatten. symmetry. apply regrouped_circus_flatten, regrouped_flatten. Qed.
  Lemma sensible_flat h : sensible w h -> sensible (flatten w) h.
  Proof.
    assert (S : forall a, story_in w a -> story_in (flatten w) a).
    { intros a (s & E). eexists. cbn [fw set_stories w_stories]. rewrite nth_error_map, E. reflexivity. }
    assert (Mm : forall a i, member_of w a i -> member_of (flatten w) a i).
    { intros a i (s & E & H). eexists. cbn [fw set_stories w_stories]. rewrite nth_error_map, E. split; [reflexivity|exact H]. }
    assert (St : forall a st, state_in w a st -> state_in (flatten w) a st).
    { intros a i (s & E & H). eexists. cbn [fw set_stories w_stories]. rewrite nth_error_map, E. split; [reflexivity|exact H]. }
    destruct h as [a| |a ids|a [ids|]|a ids states|a ids]; cbn [sensible]; intros H; intuition auto.
  Qed.
  Lemma all_sensible hs : Forall (sensible w) hs -> Forall (sensible (flatten w)) hs.
  Proof. apply Forall_impl. exact sensible_flat. Qed.

  Lemma cdr_true id hs L w' : ~ In VNA subs -> In id ["topups"; "voice_cdr"; "sms_cdr"]%string -> Forall (sensible w) hs -> emits w hs L w' ->
    exists pasts, Forall2 (true_then (truth_of id) w c hs) pasts (records id L) /\ StronglySorted earlier pasts.
  Proof.
    intros Na Hid Hs H. destruct (regrouped_emits _ _ _ _ H _ to_flat) as (w1 & H1 & _).
    destruct (history_true _ _ _ _ _ _ _ _ F R' id hs L w1 Na Hid (all_sensible _ Hs) H1) as (pasts & K & S). exists pasts. split; [|exact S].
    eapply Forall2_weaken; [|exact K]. intros p r (a & future & L1 & w2 & E & He & T). destruct (regrouped_emits _ _ _ _ He _ from_flat) as (w3 & He' & Rg).
    exists a, future, L1, w3. split; [exact E|]. split; [exact He'|]. exact (truth_regrouped _ _ _ _ _ Rg T).
  Qed.
  Lemma cdr_balanced hs L w' : ~ In VNA subs -> numbers_differ w c -> Forall (sensible w) hs -> emits w hs L w' ->
    forall sim number q, holds w (k_msisdn c) sim number -> holds w (k_main_acct c) sim (VNum q) -> holds w' (k_main_acct c) sim (VNum (balance number L q)).
  Proof.
    intros Na Nd Hs H sim m q Hm Hq. destruct (regrouped_emits _ _ _ _ H _ to_flat) as (w1 & H1 & (stories & -> & _)).
    pose proof (fine_start _ _ (flat_well_formed_with _ _ _ _ _ _ _ _ F R')) as Fs.
    destruct (emits_balanced _ _ _ _ _ _ _ _ F R' hs Na Nd (all_sensible _ Hs) _ L _ Fs H1) as (_ & K).
    - destruct (ready_main_acct _ _ _ _ _ _ _ R) as (t & Et & Nt & _). exists t. auto.
    - exact (K sim m q Hm Hq).
  Qed.

  Definition columns_of (id : string) : list string := if String.eqb id "topups" then topup_columns else if String.eqb id "voice_cdr" then voice_columns else sms_columns.
  Lemma cdr_header id : In id ["topups"; "voice_cdr"; "sms_cdr"]%string -> one_header w id (columns_of id).
  Proof.
    intros Hid. left. split; [destruct Hid as [<-|[<-|[<-|[]]]]; discriminate|]. intros a s o cs ex Es Ho P.
    apply part_flat in P; [|discriminate].
    assert (Es' : nth_error (w_stories (flatten w)) a = Some (flatten_story s)) by (cbn [fw set_stories w_stories]; now rewrite nth_error_map, Es).
    destruct (ops_of _ _ _ _ _ _ _ _ F _ _ Es') as (field & members & ops & judge & X & Eo). cbn [fs_ with_ops st_ops] in Eo.
    assert (Hin : In (OpFieldLogger id cs ex) (ops ++ [OpBack a judge])) by (rewrite <- Eo; unfold flats; apply in_flat_map; eauto). clear - Hid X Hin.
    assert (B : forallb (fun o => match o with OpFieldLogger i n _ => if String.eqb i id then if list_eq_dec string_dec n (columns_of id) then true else false else true | _ => true end) (ops ++ [OpBack a judge]) = true).
    { rewrite forallb_app. apply andb_true_iff. split; [|reflexivity].
      destruct a as [|[|[|[|[|[|a]]]]]]; cbn [nth_error flat_stories] in X; try (injection X as _ _ <-); destruct Hid as [<-|[<-|[<-|[]]]]; try reflexivity; destruct a; discriminate. }
    rewrite forallb_forall in B. specialize (B _ Hin). cbn beta iota in B. rewrite String.eqb_refl in B. destruct (list_eq_dec string_dec cs (columns_of id)); [assumption|discriminate].
  Qed.
End Circus.
