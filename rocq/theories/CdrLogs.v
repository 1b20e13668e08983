(** What the logs of tests/scenarios/test_cdr.py tell. *)
From Verif Require Import Base BaseFacts Rng Utils UtilsFacts Relationship RelationshipFacts SpecRelationship Frame Gens Clock SpecClock Attribute SpecAttribute AttributeFacts World Story Ops OpsFacts Helpers
  Circus SpecStory StoryFacts StoryExec SpecOps OpsProps OpsColumns OpsMore SpecCircus SpecPopulation SpecLocal LocalFacts SpecSupply SpecLedger LedgerProps SpecRecords RecordsProps SpecNow NowProps SpecJournal
  RowsProps SpecSafe SafeOps SafeRun SpecChains ChainsProps GeographyLog Geography Cdr SpecCdr CdrFacts CdrProps SpecCdrLogs.
From Coq Require Import Permutation Sorted.

(** ** What is told before any relationship or attribute changes *)
Definition told_of (w : world) : op -> record -> Prop := tells_given (fun _ => True) (fun _ => True) w (c_date (w_clock w)).
Lemma tells_given_mono (sr sr' sa sa' : nat -> Prop) w date o row : (forall r, sr' r -> sr r) -> (forall x, sa' x -> sa x) ->
  tells_given sr sa w date o row -> tells_given sr' sa' w date o row.
Proof. intros Hr Ha. destruct o; cbn [tells_given]; eauto. Qed.
Definition still (o : op) : bool :=
  quiet o && match o with OpAttrUpdate _ _ _ | OpAttrAdd _ _ _ _ | OpPopUpdate _ _ _ => false | _ => true end.
Lemma still_leaves x o : still o = true -> leaves x o = true.
Proof. unfold still. destruct o; cbn; intros H; try discriminate; reflexivity. Qed.
Lemma still_told w s pre more row : row_now w s (pre ++ more) row -> forallb still pre = true -> Forall (fun o => told_of w o row) pre.
Proof.
  intros [T _] B. rewrite forallb_forall in B. apply Forall_forall. intros o Ho. apply in_split in Ho as (l1 & l2 & E).
  assert (K : tells_now w l1 o row) by (apply (T l1 o (l2 ++ more)); rewrite E, <- app_assoc; reflexivity).
  assert (B' : forall o', In o' l1 -> still o' = true) by (intros o' H; apply B; rewrite E; apply in_or_app; now left).
  eapply tells_given_mono; [| |exact K].
  - intros r _ o1 o2 H1 P. apply (quiet_steady r o1 o2); [|exact P]. specialize (B' _ H1). unfold still in B'. now apply andb_true_iff in B'.
  - intros x _ o1 H1. apply leaves_changes. apply still_leaves. now apply B'.
Qed.

Section Truth.
  Context (w0 : world) (c : cdr) (src : sources) (unhealthy healthy : nat) (subs sims cells : list val).
  Hypothesis F : flat_circus w0 c src unhealthy healthy subs sims cells.
  Hypothesis R : cdr_ready w0 c unhealthy healthy subs sims cells.
  Context (w : world).
  Hypothesis Fw : fine (kinds w0 c) w0 w.

  Lemma attribute_now p name x : has_attribute w0 p name x -> has_attribute w p name x.
  Proof.
    intros (po & Hp & Hx). destruct (sc_shape _ _ (fi_since _ _ _ Fw)) as (_ & _ & _ & K & _). specialize (K p). rewrite Hp in K.
    destruct (nth_error (w_pops w) p) as [po'|] eqn:E; [|discriminate]. exists po'. split; [exact E|]. cbn in K. congruence.
  Qed.
  Lemma table_now x ids ok : filled w0 x ids ok -> exists t, nth_error (w_attrs w) x = Some t /\ NoDup (map fst t) /\ forall k v, In (k, v) t -> kinds w0 c x k v.
  Proof.
    intros (t0 & E & N & _). destruct (proj1 (fi_tables _ _ _ Fw) x t0 E N) as (t & Et & Nt & _). exists t. split; [exact Et|]. split; [exact Nt|].
    intros k v Hin. exact (fi_kinds _ _ _ Fw x t k v Et Hin).
  Qed.
  Lemma items_now r k : (exists rel, nth_error (w_rels w0) r = Some rel) -> items w r k = items w0 r k.
  Proof.
    intros (rel & E). destruct (sc_items _ _ (fi_since _ _ _ Fw) r (steady _ _ _ _ _ _ _ _ F r) rel E) as (rel' & E' & Es). unfold items, pairs_of. now rewrite E, E', Es.
  Qed.
  Lemma sims_now k : items w (k_sims_of c) k = items w0 (k_sims_of c) k.
  Proof. apply items_now. destruct (ready_strings _ _ _ _ _ _ _ R) as (rel & E & _). eauto. Qed.

  Section Row.
    Context (pre : list op) (row : record).
    Hypothesis T : Forall (fun o => told_of w o row) pre.
    Lemma told_at o : In o pre -> told_of w o row.
    Proof. rewrite Forall_forall in T. auto. Qed.

    Lemma owns_now from named : In (OpSelectAll (k_sims_of c) from named) pre ->
      In (row from) subs /\ exists ts, row named = VList ts /\ ts <> [] /\ Permutation (items w (k_sims_of c) (row from)) ts.
    Proof.
      intros H. pose proof (told_at _ H) as K. unfold told_of in K. cbn [tells_given] in K. destruct (K I) as (ts & E & N & Pm).
      { intros rel Hr. destruct (ready_strings _ _ _ _ _ _ _ R) as (rel0 & Hr0 & Hh). destruct (sc_items _ _ (fi_since _ _ _ Fw) _ (steady _ _ _ _ _ _ _ _ F _) rel0 Hr0) as (rel' & E' & Es).
        replace rel with rel' by congruence. unfold homogeneous. now rewrite Es. }
      split; [|eauto]. destruct ts as [|t ts]; [contradiction|]. rewrite sims_now in Pm.
      exact (proj1 (ready_owners _ _ _ _ _ _ _ R _ t (Permutation_in _ (Permutation_sym Pm) (or_introl eq_refl)))).
    Qed.
    Lemma lookup_list p from select name named x ids ok ts : In (OpLookup p from select) pre -> In (name, named) select -> has_attribute w0 p name x ->
      filled w0 x ids ok -> row from = VList ts -> exists vs, row named = VList vs /\ Forall2 (holds w x) ts vs.
    Proof.
      intros H Hs Ha Hf E. pose proof (told_at _ H) as K. unfold told_of in K. cbn [tells_given] in K. destruct (attribute_now _ _ _ Ha) as (po & Hp & Hx).
      destruct (table_now _ _ _ Hf) as (t & Et & Nt & _). specialize (K _ _ po x t Hs Hp Hx Et I). rewrite E in K. destruct K as (vs & Ev & K). exists vs. split; [exact Ev|].
      eapply Forall2_weaken; [|exact K]. intros i v G. exists t. split; [exact Et|]. now apply dget_In.
    Qed.
    Lemma lookup_one p from select name named x ids ok : In (OpLookup p from select) pre -> In (name, named) select -> has_attribute w0 p name x ->
      filled w0 x ids ok -> (forall l, row from <> VList l) -> holds w x (row from) (row named) /\ kinds w0 c x (row from) (row named).
    Proof.
      intros H Hs Ha Hf E. pose proof (told_at _ H) as K. unfold told_of in K. cbn [tells_given] in K. destruct (attribute_now _ _ _ Ha) as (po & Hp & Hx).
      destruct (table_now _ _ _ Hf) as (t & Et & Nt & Hk). specialize (K _ _ po x t Hs Hp Hx Et I).
      assert (G : dget (row from) t = Some (row named)) by (destruct (row from) eqn:Er; try exact K; exfalso; exact (E _ eq_refl)).
      apply dget_In in G. split; [exists t; auto|now apply Hk].
    Qed.
    Lemma applied_now sources named g k : In (OpApply sources named g) pre -> row_by_row sources (length named) g k -> map row named = k (map row sources).
    Proof. intros H K. pose proof (told_at _ H) as G. unfold told_of in G. cbn [tells_given] in G. exact (proj2 G k K). Qed.
    Lemma trigger_now g named observed : takes_numbers w0 g -> In (OpGenerateDep g named observed) pre ->
      exists proba b p v, nth_error (w_dgens w) g = Some (DTrigger proba b) /\ proba (row observed) = Ok p /\ row named = VBool v /\
        (v = true -> (0 < p)%Q) /\ (v = false -> (p < 1)%Q).
    Proof.
      intros (proba0 & b0 & Hg & _) H. pose proof (told_at _ H) as G. unfold told_of in G. cbn [tells_given] in G.
      destruct (proj2 (sc_dgens _ _ (fi_since _ _ _ Fw)) g _ Hg) as ([v0|proba b|e] & E & S); [destruct S| |destruct S]. rewrite E in G.
      destruct G as (p & v & Hp & Hv & G1 & G2). exists proba, b, p, v. split; [exact E|]. split; [exact Hp|]. split; [exact Hv|]. split; intros ->.
      - apply Qnot_le_lt. intros L. specialize (G1 L). discriminate.
      - apply Qnot_le_lt. intros L. specialize (G2 L). discriminate.
    Qed.
  End Row.

  Definition shared_columns : list string :=
    ["DATETIME"; "MSISDN_A"; "MSISDN_B"; "STATUS"; "CELL_A"; "OPERATOR_A"; "CELL_B"; "OPERATOR_B"; "TYPE"]%string.
  Lemma onnet_spec a b : let both := a = VStr "OPERATOR_0" /\ b = VStr "OPERATOR_0" in
    both /\ VStr (if onnet a b then "ONNET" else "OFFNET") = VStr "ONNET" \/ ~ both /\ VStr (if onnet a b then "ONNET" else "OFFNET") = VStr "OFFNET".
  Proof.
    cbv zeta. unfold onnet. destruct (keqb_spec a (VStr "OPERATOR_0")); destruct (keqb_spec b (VStr "OPERATOR_0")); cbn [andb]; [left|right|right|right]; (split; [tauto|reflexivity]).
  Qed.
  Lemma nth_holds x ts vs i v : Forall2 (holds w x) ts vs -> nth_error vs i = Some v -> exists k, nth_error ts i = Some k /\ holds w x k v.
  Proof. intros H E. exact (Forall2_nth_error_r _ _ _ _ _ H E). Qed.

  Lemma connects_row a s more row r : nth_error (w_stories w) a = Some s -> st_field s = "A_ID"%string -> ~ In VNA subs ->
    row_now w s ((compute_ab_fields c ++ compute_cell_status c) ++ more) row -> shows shared_columns row r ->
    connects w c a r (row "A_ID"%string) (row "B_ID"%string) /\ holds w (k_msisdn c) (row "SIM_A"%string) (row "MSISDN_A"%string) /\
    holds w (k_main_acct c) (row "SIM_A"%string) (row "MAIN_ACCT_OLD"%string).
  Proof.
    intros Es Ef Na Hr Hs. pose proof (still_told w s _ _ _ Hr eq_refl) as T. destruct Hr as [_ Acts]. rewrite Ef in Acts.
    assert (Sh : r "DATETIME"%string = row "DATETIME"%string /\ r "MSISDN_A"%string = row "MSISDN_A"%string /\ r "MSISDN_B"%string = row "MSISDN_B"%string /\
      r "STATUS"%string = row "STATUS"%string /\ r "CELL_A"%string = row "CELL_A"%string /\ r "OPERATOR_A"%string = row "OPERATOR_A"%string /\
      r "CELL_B"%string = row "CELL_B"%string /\ r "OPERATOR_B"%string = row "OPERATOR_B"%string /\ r "TYPE"%string = row "TYPE"%string)
      by (repeat split; apply Hs; cbn; tauto).
    destruct Sh as (S1 & S2 & S3 & S4 & S5 & S6 & S7 & S8 & S9).
    destruct (fc_attributes _ _ _ _ _ _ _ _ F) as (A1 & A2 & A3 & A4 & A5 & A6).
    pose proof (ready_cell _ _ _ _ _ _ _ R) as F1. pose proof (ready_operator _ _ _ _ _ _ _ R) as F3. pose proof (ready_msisdn _ _ _ _ _ _ _ R) as F4.
    pose proof (ready_main_acct _ _ _ _ _ _ _ R) as F5. pose proof (ready_health _ _ _ _ _ _ _ R) as F6.
    set (pre := compute_ab_fields c ++ compute_cell_status c) in *.
    assert (At : forall n o, nth_error pre n = Some o -> In o pre) by (intros n o E; exact (nth_error_In _ _ E)).
    destruct (owns_now pre row T _ _ (At 2 _ eq_refl)) as (Ha & sa & Ea & Nsa & Pa). destruct (owns_now pre row T _ _ (At 4 _ eq_refl)) as (Hb & sb & Eb & Nsb & Pb).
    destruct (lookup_list pre row T _ _ _ "OPERATOR" "OPERATORS_A" _ _ _ _ (At 3 _ eq_refl) ltac:(cbn; tauto) A3 F3 Ea) as (oa & Eoa & Koa).
    destruct (lookup_list pre row T _ _ _ "MSISDN" "MSISDNS_A" _ _ _ _ (At 3 _ eq_refl) ltac:(cbn; tauto) A4 F4 Ea) as (ma & Ema & Kma).
    destruct (lookup_list pre row T _ _ _ "MAIN_ACCT" "MAIN_ACCTS_A" _ _ _ _ (At 3 _ eq_refl) ltac:(cbn; tauto) A5 F5 Ea) as (aa & Eaa & Kaa).
    destruct (lookup_list pre row T _ _ _ "OPERATOR" "OPERATORS_B" _ _ _ _ (At 5 _ eq_refl) ltac:(cbn; tauto) A3 F3 Eb) as (ob & Eob & Kob).
    destruct (lookup_list pre row T _ _ _ "MSISDN" "MSISDNS_B" _ _ _ _ (At 5 _ eq_refl) ltac:(cbn; tauto) A4 F4 Eb) as (mb & Emb & Kmb).
    pose proof (applied_now pre row T _ _ _ _ (At 6 _ eq_refl) (select_sims_rows (k_order c) ["MSISDNS_A"; "OPERATORS_A"; "A_SIMS"; "MAIN_ACCTS_A"; "MSISDNS_B"; "OPERATORS_B"; "B_SIMS"]%string eq_refl)) as E.
    cbn [map] in E. rewrite Ea, Eb, Eoa, Ema, Eaa, Eob, Emb in E.
    destruct (do_select_takes (k_order c) ma oa sa aa mb ob sb (ready_order _ _ _ _ _ _ _ R) Nsa Nsb) as (i & j & v1 & v2 & v3 & v4 & v5 & v6 & v7 & Ed & G1 & G2 & G3 & G4 & G5 & G6 & G7 & Same);
      try (symmetry; eapply Forall2_length; eassumption).
    unfold chosen in E. rewrite Ed in E. clear Ed. injection E as E1 E2 E3 E4 E5 E6 E7.
    pose proof (applied_now pre row T _ _ _ _ (At 7 _ eq_refl) cdr_type_rows) as Ety. cbn [map nth] in Ety. injection Ety as Ety.
    assert (Pl : forall k, In k subs -> forall l, k <> VList l) by (intros k Hk l; apply (plain_id w0 c unhealthy healthy subs sims cells R); tauto).
    destruct (lookup_one pre row T _ _ _ "CELL" "CELL_A" _ _ _ (At 8 _ eq_refl) ltac:(cbn; tauto) A1 F1 (Pl _ Ha)) as (Ca & Ka & _).
    destruct (lookup_one pre row T _ _ _ "CELL" "CELL_B" _ _ _ (At 9 _ eq_refl) ltac:(cbn; tauto) A1 F1 (Pl _ Hb)) as (Cb & Kb & _).
    specialize (Ka eq_refl). specialize (Kb eq_refl). apply (ready_cells _ _ _ _ _ _ _ R) in Ka, Kb.
    assert (Plc : forall k, In k cells -> forall l, k <> VList l) by (intros k Hk l; apply (plain_id w0 c unhealthy healthy subs sims cells R); tauto).
    destruct (lookup_one pre row T _ _ _ "HEALTH" "CELL_A_HEALTH" _ _ _ (At 10 _ eq_refl) ltac:(cbn; tauto) A6 F6 (Plc _ Ka)) as (Ha' & _).
    destruct (lookup_one pre row T _ _ _ "HEALTH" "CELL_B_HEALTH" _ _ _ (At 11 _ eq_refl) ltac:(cbn; tauto) A6 F6 (Plc _ Kb)) as (Hb' & _).
    destruct (ready_triggers _ _ _ _ _ _ _ R) as [Tf _].
    destruct (trigger_now pre row T _ _ _ Tf (At 12 _ eq_refl)) as (pr1 & b1 & p1 & u1 & D1 & P1 & U1 & U2 & U3).
    destruct (trigger_now pre row T _ _ _ Tf (At 13 _ eq_refl)) as (pr2 & b2 & p2 & u2 & D2 & P2 & V1 & V2 & V3).
    pose proof (applied_now pre row T _ _ _ _ (At 14 _ eq_refl) call_status_rows) as Est. cbn [map nth] in Est. injection Est as Est. rewrite U1, V1 in Est. cbn [truth] in Est.
    pose proof (told_at pre row T _ (At 0 _ eq_refl)) as Tt. pose proof (told_at pre row T _ (At 1 _ eq_refl)) as Tfr. unfold told_of in Tt, Tfr. cbn [tells_given] in Tt, Tfr.
    destruct (nth_holds _ _ _ _ _ Kma G1) as (k1 & N1 & Hm1). destruct (nth_holds _ _ _ _ _ Koa G2) as (k2 & N2 & Ho1). destruct (nth_holds _ _ _ _ _ Kaa G4) as (k4 & N4 & Hac).
    destruct (nth_holds _ _ _ _ _ Kmb G5) as (k5 & N5 & Hm2). destruct (nth_holds _ _ _ _ _ Kob G6) as (k6 & N6 & Ho2).
    replace k1 with v3 in * by congruence. replace k2 with v3 in * by congruence. replace k4 with v3 in * by congruence. replace k5 with v7 in * by congruence. replace k6 with v7 in * by congruence.
    split; [|split; [now rewrite E3, E1|now rewrite E3, E4]]. constructor.
    - exists s. auto.
    - destruct (Tfr I) as [K|(_ & K & _)]; [exact K|]. exfalso. apply Na. rewrite <- K. exact Hb.
    - exists v3. rewrite S2, S6, S5, E1, E2. split; [exact (Permutation_in _ (Permutation_sym Pa) (nth_error_In _ _ G3))|auto].
    - exists v7. rewrite S3, S8, S7, E5, E6. split; [exact (Permutation_in _ (Permutation_sym Pb) (nth_error_In _ _ G7))|auto].
    - intros (sim & sim' & operator & I1 & I2 & O1 & O2). rewrite S6, S8, E2, E6. apply Same. exists operator.
      destruct (table_now _ _ _ F3) as (t & Et & Nt & _).
      assert (X : forall ts vs k v, Forall2 (holds w (k_operator c)) ts vs -> In k ts -> holds w (k_operator c) k v -> In v vs).
      { intros ts vs k v K Hin (t1 & Et1 & Hv). replace t1 with t in Hv by congruence. clear - K Hin Et Nt Hv. induction K as [|k' v' ts vs (t' & Et' & Hv') _ IH]; [destruct Hin|].
        destruct Hin as [->|Hin]; [left|right; auto]. replace t' with t in Hv' by congruence. apply (In_dget _ _ _ Nt) in Hv, Hv'. congruence. }
      split; [eapply X; [exact Koa|exact (Permutation_in _ Pa I1)|exact O1]|eapply X; [exact Kob|exact (Permutation_in _ Pb I2)|exact O2]].
    - rewrite S6, S8, S9, Ety. apply onnet_spec.
    - exists p1, p2. rewrite S5, S7, S4, Est. split; [exists (row "CELL_A_HEALTH"%string), pr1, b1; auto|]. split; [exists (row "CELL_B_HEALTH"%string), pr2, b2; auto|].
      destruct u1; cbn [andb]; [destruct u2|]; [left|right|right]; (split; [reflexivity|]); auto.
    - rewrite S1. destruct Tt as (t & Et & Ht). exists t. auto.
  Qed.
End Truth.

(** ** The stories that change accounts *)
Lemma build_step cols o new ops cols' : adds o new \/ (exists r from named, o = OpSelectAll r from named /\ new = [named]) ->
  new_ok cols new (reads o) = true -> builds_up (cols ++ new) ops cols' -> builds_up cols (o :: ops) cols'.
Proof.
  intros A B D. unfold new_ok in B. rewrite !andb_true_iff in B. destruct B as [[B1 B2] B3]. rewrite forallb_forall in B2, B3.
  apply (builds_by _ _ new); auto.
  - now apply nodupb_NoDup.
  - intros c Hc K. specialize (B2 _ Hc). apply negb_true_iff in B2. apply mem_In in K. congruence.
  - intros c Hc. apply mem_In. auto.
Qed.
Lemma widen_step cols o new ops cols' : adds o new -> new_ok cols new [] = true -> drops_rows o = false -> widens false (cols ++ new) ops cols' -> widens false cols (o :: ops) cols'.
Proof.
  intros A B Dr D. unfold new_ok in B. rewrite !andb_true_iff in B. destruct B as [[B1 B2] _]. rewrite forallb_forall in B2.
  apply (widens_by _ _ _ new); auto.
  - now apply nodupb_NoDup.
  - intros c Hc K. specialize (B2 _ Hc). apply negb_true_iff in B2. apply mem_In in K. congruence.
Qed.
Ltac adding := first [left; reflexivity|left; apply add_binary|left; apply add_call_value|left; apply add_sms_value|left; apply add_type|left; apply add_status|
  left; apply add_sims; [apply nodupb_NoDup; reflexivity|reflexivity|reflexivity]|right; eauto].
Ltac build new := apply (build_step _ _ new); [adding|reflexivity|cbn [app]].
Ltac widen new := apply (widen_step _ _ new); [reflexivity|reflexivity|reflexivity|cbn [app]].

Section Stories.
  Context (c : cdr).
  Definition ab_columns : list string :=
    ["A_ID"; "DATETIME"; "B_ID"; "A_SIMS"; "OPERATORS_A"; "MSISDNS_A"; "MAIN_ACCTS_A"; "B_SIMS"; "OPERATORS_B"; "MSISDNS_B";
     "MSISDN_A"; "OPERATOR_A"; "SIM_A"; "MAIN_ACCT_OLD"; "MSISDN_B"; "OPERATOR_B"; "SIM_B"; "TYPE";
     "CELL_A"; "EXCITABILITY_A"; "CELL_B"; "EXCITABILITY_B"; "CELL_A_HEALTH"; "CELL_B_HEALTH"; "CELL_A_ACCEPTS"; "CELL_B_ACCEPTS"; "STATUS"]%string.
  Lemma ab_builds : builds_up ["A_ID"%string] (compute_ab_fields c ++ compute_cell_status c) ab_columns.
  Proof.
    unfold compute_ab_fields, compute_cell_status. cbn [app].
    build ["DATETIME"]%string. build ["B_ID"]%string. build ["A_SIMS"]%string. build ["OPERATORS_A"; "MSISDNS_A"; "MAIN_ACCTS_A"]%string. build ["B_SIMS"]%string. build ["OPERATORS_B"; "MSISDNS_B"]%string.
    build ["MSISDN_A"; "OPERATOR_A"; "SIM_A"; "MAIN_ACCT_OLD"; "MSISDN_B"; "OPERATOR_B"; "SIM_B"]%string. build ["TYPE"]%string.
    build ["CELL_A"; "EXCITABILITY_A"]%string. build ["CELL_B"; "EXCITABILITY_B"]%string. build ["CELL_A_HEALTH"]%string. build ["CELL_B_HEALTH"]%string. build ["CELL_A_ACCEPTS"]%string. build ["CELL_B_ACCEPTS"]%string.
    build ["STATUS"]%string. apply built_up.
  Qed.
  Definition calls_own : list op :=
    [OpGenerate (k_voice c) "PRODUCT" None; OpGenerate (k_duration c) "DURATION" None; OpApply ["DURATION"; "DATETIME"; "TYPE"]%string ["VALUE"%string] compute_call_value;
     OpApply ["MAIN_ACCT_OLD"; "VALUE"]%string ["MAIN_ACCT_NEW"%string] (np_binary Qcminus)].
  Definition sms_own : list op :=
    [OpGenerate (k_text c) "PRODUCT" None; OpApply ["DATETIME"; "TYPE"]%string ["VALUE"%string] compute_sms_value;
     OpApply ["MAIN_ACCT_OLD"; "VALUE"]%string ["MAIN_ACCT_NEW"%string] (np_binary Qcminus)].
  Lemma calls_builds : builds_up ab_columns calls_own (ab_columns ++ ["PRODUCT"; "DURATION"; "VALUE"; "MAIN_ACCT_NEW"]%string).
  Proof. unfold calls_own, ab_columns. build ["PRODUCT"]%string. build ["DURATION"]%string. build ["VALUE"]%string. build ["MAIN_ACCT_NEW"]%string. apply built_up. Qed.
  Lemma sms_builds : builds_up ab_columns sms_own (ab_columns ++ ["PRODUCT"; "VALUE"; "MAIN_ACCT_NEW"]%string).
  Proof. unfold sms_own, ab_columns. build ["PRODUCT"]%string. build ["VALUE"]%string. build ["MAIN_ACCT_NEW"]%string. apply built_up. Qed.
  Definition charging : op := OpAttrUpdate (k_main_acct c) "SIM_A" "MAIN_ACCT_NEW".
  Definition consequences : list op := trigger_topups c ++ get_bursty c.
  Lemma calls_follow : builds_up (ab_columns ++ ["PRODUCT"; "DURATION"; "VALUE"; "MAIN_ACCT_NEW"]%string) (charging :: consequences)
    ((ab_columns ++ ["PRODUCT"; "DURATION"; "VALUE"; "MAIN_ACCT_NEW"]%string) ++ ["SHOULD_TOP_UP"; "A_GETTING_BURSTY"; "B_GETTING_BURSTY"]%string).
  Proof.
    unfold charging, consequences, trigger_topups, get_bursty, ab_columns. cbn [app]. build (@nil string). build ["SHOULD_TOP_UP"]%string. build (@nil string).
    build ["A_GETTING_BURSTY"]%string. build (@nil string). build (@nil string). build ["B_GETTING_BURSTY"]%string. do 4 (build (@nil string)). apply built_up.
  Qed.
  Lemma sms_follow : builds_up (ab_columns ++ ["PRODUCT"; "VALUE"; "MAIN_ACCT_NEW"]%string) (charging :: consequences)
    ((ab_columns ++ ["PRODUCT"; "VALUE"; "MAIN_ACCT_NEW"]%string) ++ ["SHOULD_TOP_UP"; "A_GETTING_BURSTY"; "B_GETTING_BURSTY"]%string).
  Proof.
    unfold charging, consequences, trigger_topups, get_bursty, ab_columns. cbn [app]. build (@nil string). build ["SHOULD_TOP_UP"]%string. build (@nil string).
    build ["A_GETTING_BURSTY"]%string. build (@nil string). build (@nil string). build ["B_GETTING_BURSTY"]%string. do 4 (build (@nil string)). apply built_up.
  Qed.
  Lemma calls_widen : widens false (ab_columns ++ ["PRODUCT"; "DURATION"; "VALUE"; "MAIN_ACCT_NEW"]%string) consequences
    ((ab_columns ++ ["PRODUCT"; "DURATION"; "VALUE"; "MAIN_ACCT_NEW"]%string) ++ ["SHOULD_TOP_UP"; "A_GETTING_BURSTY"; "B_GETTING_BURSTY"]%string).
  Proof.
    unfold consequences, trigger_topups, get_bursty, ab_columns. cbn [app]. widen ["SHOULD_TOP_UP"]%string. widen (@nil string).
    widen ["A_GETTING_BURSTY"]%string. widen (@nil string). widen (@nil string). widen ["B_GETTING_BURSTY"]%string. do 4 (widen (@nil string)). constructor.
  Qed.
  Lemma sms_widen : widens false (ab_columns ++ ["PRODUCT"; "VALUE"; "MAIN_ACCT_NEW"]%string) consequences
    ((ab_columns ++ ["PRODUCT"; "VALUE"; "MAIN_ACCT_NEW"]%string) ++ ["SHOULD_TOP_UP"; "A_GETTING_BURSTY"; "B_GETTING_BURSTY"]%string).
  Proof.
    unfold consequences, trigger_topups, get_bursty, ab_columns. cbn [app]. widen ["SHOULD_TOP_UP"]%string. widen (@nil string).
    widen ["A_GETTING_BURSTY"]%string. widen (@nil string). widen (@nil string). widen ["B_GETTING_BURSTY"]%string. do 4 (widen (@nil string)). constructor.
  Qed.
  Definition voice_columns : list string :=
    ["DATETIME"; "MSISDN_A"; "MSISDN_B"; "STATUS"; "DURATION"; "VALUE"; "CELL_A"; "OPERATOR_A"; "CELL_B"; "OPERATOR_B"; "TYPE"; "PRODUCT"]%string.
  Definition sms_columns : list string :=
    ["DATETIME"; "MSISDN_A"; "MSISDN_B"; "STATUS"; "VALUE"; "CELL_A"; "OPERATOR_A"; "CELL_B"; "OPERATOR_B"; "TYPE"; "PRODUCT"]%string.
  Lemma calls_flat : flats (cdr_calls c) = ((compute_ab_fields c ++ compute_cell_status c) ++ calls_own) ++ charging :: consequences ++ [OpFieldLogger "voice_cdr" voice_columns []].
  Proof. reflexivity. Qed.
  Lemma sms_flat : flats (cdr_sms c) = ((compute_ab_fields c ++ compute_cell_status c) ++ sms_own) ++ charging :: consequences ++ [OpFieldLogger "sms_cdr" sms_columns []].
  Proof. reflexivity. Qed.

  Definition topup_own : list op := firstn 4 (cdr_topups c).
  Definition topup_columns : list string := ["TIME"; "CUSTOMER_NUMBER"; "AGENT"; "VALUE"; "OPERATOR"; "MAIN_ACCT_OLD"; "MAIN_ACCT"]%string.
  Definition topup_known : list string := ["SIM_ID"; "CUSTOMER_NUMBER"; "OPERATOR"; "MAIN_ACCT_OLD"; "AGENT"; "VALUE"; "MAIN_ACCT"]%string.
  Lemma topup_builds : builds_up ["SIM_ID"%string] topup_own topup_known.
  Proof. unfold topup_own, cdr_topups, topup_known. cbn [firstn]. build ["CUSTOMER_NUMBER"; "OPERATOR"; "MAIN_ACCT_OLD"]%string. build ["AGENT"]%string. build ["VALUE"]%string. build ["MAIN_ACCT"]%string. apply built_up. Qed.
  Definition crediting : op := OpAttrUpdate (k_main_acct c) "SIM_ID" "MAIN_ACCT".
  Lemma topup_follow : builds_up topup_known (crediting :: [OpTimestamp "TIME" true (k_fmt c)]) (topup_known ++ ["TIME"%string]).
  Proof. unfold crediting, topup_known. build (@nil string). build ["TIME"]%string. apply built_up. Qed.
  Lemma topup_widen : widens false topup_known [OpTimestamp "TIME" true (k_fmt c)] (topup_known ++ ["TIME"%string]).
  Proof. unfold topup_known. widen ["TIME"]%string. constructor. Qed.
  Lemma topups_flat : cdr_topups c = topup_own ++ crediting :: [OpTimestamp "TIME" true (k_fmt c)] ++ [OpFieldLogger "topups" topup_columns []].
  Proof. reflexivity. Qed.
End Stories.

(** ** One posting *)
Lemma sum_none whose m rs : (forall r : record, In r rs -> r whose <> m) -> sum_of whose m rs = 0%Qc.
Proof.
  intros H. unfold sum_of. replace (filter _ rs) with (@nil record); [reflexivity|]. induction rs as [|r rs IH]; [reflexivity|]. cbn [filter].
  destruct (val_eqb (r whose) m) eqn:E; [apply val_eqb_eq in E; exfalso; exact (H r (or_introl eq_refl) E)|]. apply IH. intros r' Hr. apply H. now right.
Qed.
Lemma sum_app whose m a b : sum_of whose m (a ++ b) = (sum_of whose m a + sum_of whose m b)%Qc.
Proof.
  unfold sum_of. rewrite (filter_app (A := record)), map_app. induction (map _ (filter _ a)) as [|v l IH]; cbn [app total]; [ring|].
  destruct v; try exact IH. rewrite IH. ring.
Qed.
Lemma sum_one whose m r v : r whose = m -> r "VALUE"%string = VNum v -> sum_of whose m [r] = v.
Proof.
  intros E V. unfold sum_of. cbn [filter]. assert (K : val_eqb (r whose) m = true) by now apply val_eqb_eq. rewrite K. cbn [map]. rewrite V. cbn [total]. ring.
Qed.

Lemma one_value w x k v v' : single_valued w x -> holds w x k v -> holds w x k v' -> v = v'.
Proof.
  intros (t & Et & Nt) (t1 & Et1 & K1) (t2 & Et2 & K2). replace t1 with t in K1 by congruence. replace t2 with t in K2 by congruence.
  apply (In_dget _ _ _ Nt) in K1, K2. congruence.
Qed.
Lemma shown_in (names : list string) rows rs r : Forall2 (shows names) rows rs -> In r rs -> exists row : record, In row rows /\ shows names row r.
Proof.
  induction 1 as [|row r0 rows rs S F IH]; intros H; [destruct H|]. destruct H as [<-|H]; [exists row; split; [now left|exact S]|].
  destruct (IH H) as (row' & I & S'). exists row'. split; [now right|exact S'].
Qed.

Lemma posted x num who what whose (names : list string) rows rs w w' (e : Qc) :
  overwritten x who what rows w w' -> single_valued w x -> single_valued w num -> Forall2 (shows names) rows rs -> In whose names -> In "VALUE"%string names ->
  (forall row : record, In row rows -> holds w num (row who) (row whose) /\
     exists old v, holds w x (row who) (VNum old) /\ row "VALUE"%string = VNum v /\ row what = VNum (old + e * v)%Qc) ->
  (forall sim sim' m, holds w num sim m -> holds w num sim' m -> sim = sim') ->
  single_valued w' x /\ forall sim m q, holds w num sim m -> holds w x sim (VNum q) -> holds w' x sim (VNum (q + e * sum_of whose m rs)%Qc).
Proof.
  intros O Sv Sn Sh I1 I2 Hr Inj. destruct (O Sv) as (Sv' & Nd & Hh). split; [exact Sv'|]. intros sim m q Hm Hq.
  assert (X : forall row : record, In row rows -> row whose = m -> row who = sim).
  { intros row Hin E. destruct (Hr row Hin) as [K _]. rewrite E in K. exact (Inj _ _ _ K Hm). }
  destruct (in_dec key_dec sim (map (fun row : record => row who) rows)) as [Hin|Hin].
  - apply in_map_iff in Hin as (row & Ew & Hin). destruct (Hr row Hin) as (Kn & old & v & Ko & Kv & Kw). rewrite Ew in Kn, Ko.
    pose proof (one_value _ _ _ _ _ Sv Ko Hq) as Eo. injection Eo as ->. pose proof (one_value _ _ _ _ _ Sn Kn Hm) as Em.
    assert (Hsum : sum_of whose m rs = v).
    { apply in_split in Hin as (r1 & r2 & E). subst rows. apply Forall2_app_inv_l in Sh as (s1 & s2 & Sh1 & Sh2 & ->).
      inversion Sh2 as [|? r ? s3 Sr Sh3 E1 E2]; subst. rewrite map_app in Nd. cbn [map] in Nd. apply NoDup_remove_2 in Nd.
      change (r :: s3) with ([r] ++ s3). rewrite !sum_app. rewrite (sum_none _ _ s1), (sum_none _ _ s3).
      - rewrite (sum_one whose _ r v); [ring|rewrite (Sr whose I1); congruence|rewrite (Sr _ I2); exact Kv].
      - intros r' Hr' E. destruct (shown_in _ _ _ _ Sh3 Hr') as (row' & Hin' & S'). rewrite (S' whose I1) in E. apply Nd. apply in_or_app. right.
        rewrite <- (X row' ltac:(apply in_or_app; right; now right) E). exact (in_map (fun row : record => row who) _ _ Hin').
      - intros r' Hr' E. destruct (shown_in _ _ _ _ Sh1 Hr') as (row' & Hin' & S'). rewrite (S' whose I1) in E. apply Nd. apply in_or_app. left.
        rewrite <- (X row' ltac:(apply in_or_app; now left) E). exact (in_map (fun row : record => row who) _ _ Hin'). }
    apply Hh. left. exists row. rewrite Hsum. repeat split; assumption.
  - rewrite sum_none.
    + apply Hh. right. split; [exact Hin|]. replace (q + e * 0)%Qc with q by ring. exact Hq.
    + intros r Hrin E. destruct (shown_in _ _ _ _ Sh Hrin) as (row' & Hin' & S'). rewrite (S' whose I1) in E. apply Hin.
      rewrite <- (X row' Hin' E). exact (in_map (fun row : record => row who) _ _ Hin').
Qed.
