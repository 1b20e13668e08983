(** The stories of tests/scenarios/test_cdr.py, without chains, are well formed. *)
From Verif Require Import Base BaseFacts Rng Utils UtilsFacts Relationship RelationshipFacts SpecRelationship Frame Gens Clock SpecClock Attribute SpecAttribute AttributeFacts World Story Ops OpsFacts Helpers
  Circus SpecStory SpecOps OpsProps OpsColumns OpsMore SpecCircus SpecPopulation SpecLocal SpecSupply SpecLedger SpecRecords SpecSafe SpecChains ChainsProps GeographyLog Geography Cdr SpecCdr CdrFacts.
From Coq Require Import Permutation.

(** ** Checking columns by computation *)
Definition new_ok (cols new sources : list string) : bool :=
  nodupb new && forallb (fun c => negb (mem c cols)) new && forallb (fun c => mem c cols) sources.
Lemma safe_step kinds w s before cols o new ops : adds o new \/ (exists r from named, o = OpSelectAll r from named /\ new = [named]) ->
  new_ok cols new (reads o) = true -> safe_on kinds w (st_ids s) (st_field s) cols (possible_row kinds w s before) o ->
  safe_ops kinds w s (before ++ [o]) (cols ++ new) ops -> safe_ops kinds w s before cols (o :: ops).
Proof.
  intros A B C D. unfold new_ok in B. rewrite !andb_true_iff in B. destruct B as [[B1 B2] B3]. rewrite forallb_forall in B2, B3.
  apply (safe_then kinds w s _ _ _ new); auto.
  - now apply nodupb_NoDup.
  - intros c Hc K. specialize (B2 _ Hc). apply negb_true_iff in B2. apply mem_In in K. congruence.
  - intros c Hc. apply mem_In. auto.
Qed.

Lemma incl_check (a b : list string) : forallb (fun c => mem c b) a = true -> incl a b.
Proof. rewrite forallb_forall. intros H x Hx. apply mem_In. auto. Qed.

Lemma Forall2_nth_error_r {A B} (P : A -> B -> Prop) l l' i y : Forall2 P l l' -> nth_error l' i = Some y -> exists x, nth_error l i = Some x /\ P x y.
Proof. intros H. revert i. induction H as [|a b l l' K _ IH]; intros [|i] E; try discriminate; cbn in E |- *; [injection E as <-; eauto|auto]. Qed.

(** ** Operations that move no items *)
Definition quiet (o : op) : bool :=
  match o with
  | OpChain _ | OpRelAdd _ _ _ | OpRelAddGrouped _ _ _ => false
  | OpSelectOne _ _ _ _ pop _ _ | OpSelectMany _ _ _ _ pop _ => negb pop
  | _ => true
  end.
Lemma quiet_steady r o o' : quiet o = true -> part_of o' o -> ~ moves_items r o'.
Proof. intros Q P. destruct P; [|discriminate Q]. destruct o'; cbn in *; try tauto; try discriminate; intros [_ K]; rewrite K in Q; discriminate. Qed.

Section Flat.
  Context (w : world) (c : cdr) (src : sources) (unhealthy healthy : nat) (subs sims cells : list val).

  (** The circus without chains. *)
  Definition flat_stories : list (string * list val * list op) :=
    [("CELL_ID", cells, break_down_ops src unhealthy (k_health c) 1); ("CELL_ID", cells, repair_ops src healthy (k_health c));
     ("A_ID", subs, cdr_mobility c); ("SIM_ID", sims, cdr_topups c); ("A_ID", subs, flats (cdr_calls c)); ("A_ID", subs, flats (cdr_sms c))]%string.
  Record flat_circus : Prop := {
    fc_numbers : k_topups c = 3 /\ k_calls c = 4 /\ k_sms c = 5;
    fc_all : forall a s, nth_error (w_stories w) a = Some s -> a < 6;
    fc_story : forall a field members ops, nth_error flat_stories a = Some (field, members, ops) -> exists s, cdr_story w a s field members ops;
    fc_excited : forall a s, a = 4 \/ a = 5 -> nth_error (w_stories w) a = Some s -> In "excited"%string (st_states s);
    fc_attributes : has_attribute w (k_subs c) "CELL" (k_cell c) /\ has_attribute w (k_subs c) "EXCITABILITY" (k_excitability c) /\
      has_attribute w (k_sims_pop c) "OPERATOR" (k_operator c) /\ has_attribute w (k_sims_pop c) "MSISDN" (k_msisdn c) /\
      has_attribute w (k_sims_pop c) "MAIN_ACCT" (k_main_acct c) /\ has_attribute w (k_cells c) "HEALTH" (k_health c);
    fc_distinct : NoDup [k_cell c; k_excitability c; k_operator c; k_msisdn c; k_main_acct c; k_health c]
  }.
  Hypothesis F : flat_circus.
  Hypothesis R : cdr_ready w c unhealthy healthy subs sims cells.

  Lemma story_is a s : nth_error (w_stories w) a = Some s -> exists field members ops, nth_error flat_stories a = Some (field, members, ops) /\ cdr_story w a s field members ops.
  Proof.
    intros E. pose proof (fc_all F _ _ E) as L.
    assert (X : exists x, nth_error flat_stories a = Some x) by (destruct (nth_error flat_stories a) eqn:K; [eauto|apply nth_error_None in K; cbn in K; lia]).
    destruct X as ([[field members] ops] & X). destruct (fc_story F _ _ _ _ X) as (s' & H). exists field, members, ops. split; [exact X|].
    assert (s' = s) by (destruct H as [H _]; congruence). now subst.
  Qed.
  Lemma member_in a field members ops i : nth_error flat_stories a = Some (field, members, ops) -> In i members -> member_of w a i.
  Proof. intros X Hi. destruct (fc_story F _ _ _ _ X) as (s & H1 & _ & <- & _). exists s. auto. Qed.
  Lemma story_there a x : nth_error flat_stories a = Some x -> story_in w a.
  Proof. intros X. destruct x as [[field members] ops]. destruct (fc_story F _ _ _ _ X) as (s & H1 & _). exists s. auto. Qed.

  Lemma all_quiet a s o : nth_error (w_stories w) a = Some s -> In o (st_ops s) -> quiet o = true.
  Proof.
    intros E Ho. destruct (story_is _ _ E) as (field & members & ops & X & _ & _ & _ & judge & Eo). rewrite Eo in Ho.
    apply in_app_iff in Ho as [Ho|[<-|[]]]; [|reflexivity]. revert o Ho. apply forallb_forall.
    destruct a as [|[|[|[|[|[|a]]]]]]; cbn [nth_error flat_stories] in X; try (injection X as _ _ <-; reflexivity). destruct a; discriminate.
  Qed.
  Lemma steady r : steady_relationship w r.
  Proof. intros a s o o' E Ho. apply quiet_steady. exact (all_quiet _ _ _ E Ho). Qed.

  (** The values the attributes hold. *)
  Definition kinds (x : nat) (k v : val) : Prop :=
    (x = k_cell c -> In v (items w (k_possible_cells c) k)) /\ (In x [k_excitability c; k_main_acct c; k_health c] -> a_number v).
  Lemma respected : respects kinds w.
  Proof.
    intros x t k v Ht Hin. split.
    - intros ->. destruct (ready_cell _ _ _ _ _ _ _ R) as (t' & Ht' & _ & _ & K). replace t' with t in K by congruence. exact (K _ _ Hin).
    - intros [<-|[<-|[<-|[]]]];
        [destruct (ready_excitability _ _ _ _ _ _ _ R) as (t' & Ht' & _ & _ & K)|destruct (ready_main_acct _ _ _ _ _ _ _ R) as (t' & Ht' & _ & _ & K)|
         destruct (ready_health _ _ _ _ _ _ _ R) as (t' & Ht' & _ & _ & K)]; replace t' with t in K by congruence; exact (K _ _ Hin).
  Qed.
  Lemma kinds_number x k v : x <> k_cell c -> a_number v -> kinds x k v.
  Proof. intros N H. split; [contradiction|auto]. Qed.
  Lemma health_not_cell : k_health c <> k_cell c.
  Proof. pose proof (fc_distinct F) as N. inversion N. cbn in *. intuition congruence. Qed.
  Lemma acct_not_cell : k_main_acct c <> k_cell c.
  Proof. pose proof (fc_distinct F) as N. inversion N. cbn in *. intuition congruence. Qed.
  Lemma filled_single x ids ok : filled w x ids ok -> single_valued w x.
  Proof. intros (t & H & N & _). exists t. auto. Qed.

  Lemma selected r : choosable w r -> selectable w r.
  Proof. intros (rel & H & H1 & H2). exists rel. split; [exact H|]. right. split; [apply steady|]. split; [exact H1|exact H2]. Qed.
  Lemma plain_id k l : In k subs \/ In k sims \/ In k cells -> k <> VList l.
  Proof. intros H ->. apply (ready_ids _ _ _ _ _ _ _ R l). rewrite !in_app_iff. tauto. Qed.

  (** ** What is known of a row *)
  Section Rows.
    Context (s : story) (before : list op) (row : record).
    Hypothesis P : possible_row kinds w s before row.
    Lemma told_by o : In o before -> (exists date, tells w date o row) /\ of_kind kinds w o row.
    Proof. destruct P as (_ & (date & T) & K). rewrite Forall_forall in T, K. intros H. split; [exists date|]; auto. Qed.

    Lemma owns from named : In (OpSelectAll (k_sims_of c) from named) before ->
      In (row from) subs /\ exists ts, row named = VList ts /\ ts <> [] /\ incl ts (items w (k_sims_of c) (row from)) /\ incl ts sims.
    Proof.
      intros H. destruct (told_by _ H) as ((date & T) & _). unfold tells in T. cbn [tells_given] in T.
      destruct (T (steady _)) as (ts & E & N & Pm).
      { intros rel Hr. destruct (ready_strings _ _ _ _ _ _ _ R) as (rel' & Hr' & K). replace rel with rel' by congruence. exact K. }
      assert (Hi : incl ts (items w (k_sims_of c) (row from))) by (intros x Hx; exact (Permutation_in _ (Permutation_sym Pm) Hx)).
      split.
      - destruct ts as [|t ts]; [contradiction|]. exact (proj1 (ready_owners _ _ _ _ _ _ _ R _ _ (Hi t (or_introl eq_refl)))).
      - exists ts. split; [exact E|]. split; [exact N|]. split; [exact Hi|]. intros x Hx. exact (proj2 (ready_owners _ _ _ _ _ _ _ R _ _ (Hi _ Hx))).
    Qed.
    Lemma looks_up_list p from select name named x ids ok ts : In (OpLookup p from select) before -> In (name, named) select -> has_attribute w p name x ->
      filled w x ids ok -> row from = VList ts -> exists vs, row named = VList vs /\ Forall2 (kinds x) ts vs.
    Proof.
      intros H Hs (po & Hp & Hx) Hf E. destruct (told_by _ H) as (_ & K). cbn [of_kind] in K. specialize (K _ _ _ _ Hs Hp Hx (filled_single _ _ _ Hf)). rewrite E in K. exact K.
    Qed.
    Lemma looks_up p from select name named x ids ok : In (OpLookup p from select) before -> In (name, named) select -> has_attribute w p name x ->
      filled w x ids ok -> (forall l, row from <> VList l) -> kinds x (row from) (row named).
    Proof.
      intros H Hs (po & Hp & Hx) Hf E. destruct (told_by _ H) as (_ & K). cbn [of_kind] in K. specialize (K _ _ _ _ Hs Hp Hx (filled_single _ _ _ Hf)).
      destruct (row from) eqn:Er; try exact K. exfalso. exact (E _ eq_refl).
    Qed.
    Lemma triggered g named observed : takes_numbers w g -> In (OpGenerateDep g named observed) before -> exists b, row named = VBool b.
    Proof.
      intros (proba & b & Hg & _) H. destruct (told_by _ H) as ((date & T) & _). unfold tells in T. cbn [tells_given] in T. rewrite Hg in T.
      destruct T as (p & b' & _ & E & _). eauto.
    Qed.
    Lemma generated g named : gives_numbers w g -> In (OpGenerate g named None) before -> a_number (row named).
    Proof. intros (_ & K) H. destruct (told_by _ H) as ((date & T) & _). apply K. exact T. Qed.
    Lemma applied sources named g k : In (OpApply sources named g) before -> row_by_row sources (length named) g k -> map row named = k (map row sources).
    Proof. intros H K. destruct (told_by _ H) as ((date & T) & _). unfold tells in T. cbn [tells_given] in T. exact (proj2 T k K). Qed.
    Lemma added f a b n : In (OpApply [a; b] [n] (np_binary f)) before -> a_number (row a) -> a_number (row b) -> a_number (row n).
    Proof.
      intros H (x & Ex) (y & Ey). pose proof (applied _ _ _ _ H (np_binary_rows f [a; b])) as E. cbn [map computed] in E. rewrite Ex, Ey in E. cbn [arith] in E. injection E as E. rewrite E. exists (f x y). reflexivity.
    Qed.
  End Rows.

  (** The SIM cards of a call or of a message. *)
  Lemma simcards s before row : st_field s = "A_ID"%string -> st_ids s = subs -> possible_row kinds w s before row -> incl (firstn 7 (compute_ab_fields c)) before ->
    In (row "A_ID"%string) subs /\ In (row "B_ID"%string) subs /\ In (row "SIM_A"%string) (items w (k_sims_of c) (row "A_ID"%string)) /\ a_number (row "MAIN_ACCT_OLD"%string).
  Proof.
    intros Hf Hi P I. destruct (fc_attributes F) as (_ & _ & A3 & A4 & A5 & _).
    pose proof (ready_operator _ _ _ _ _ _ _ R) as F3. pose proof (ready_msisdn _ _ _ _ _ _ _ R) as F4. pose proof (ready_main_acct _ _ _ _ _ _ _ R) as F5.
    assert (I3 := I _ (or_intror (or_intror (or_introl eq_refl)))). assert (I4 := I _ (or_intror (or_intror (or_intror (or_introl eq_refl))))).
    assert (I5 := I _ (or_intror (or_intror (or_intror (or_intror (or_introl eq_refl)))))). assert (I6 := I _ (or_intror (or_intror (or_intror (or_intror (or_intror (or_introl eq_refl))))))).
    assert (I7 := I _ (or_intror (or_intror (or_intror (or_intror (or_intror (or_intror (or_introl eq_refl)))))))).
    destruct (owns _ _ _ P _ _ I3) as (Ha & sa & Ea & Na & Ia & _). destruct (owns _ _ _ P _ _ I5) as (Hb & sb & Eb & Nb & _ & _).
    destruct (looks_up_list _ _ _ P _ _ _ "OPERATOR" "OPERATORS_A" _ _ _ _ I4 ltac:(cbn; tauto) A3 F3 Ea) as (oa & Eoa & Koa).
    destruct (looks_up_list _ _ _ P _ _ _ "MSISDN" "MSISDNS_A" _ _ _ _ I4 ltac:(cbn; tauto) A4 F4 Ea) as (ma & Ema & Kma).
    destruct (looks_up_list _ _ _ P _ _ _ "MAIN_ACCT" "MAIN_ACCTS_A" _ _ _ _ I4 ltac:(cbn; tauto) A5 F5 Ea) as (aa & Eaa & Kaa).
    destruct (looks_up_list _ _ _ P _ _ _ "OPERATOR" "OPERATORS_B" _ _ _ _ I6 ltac:(cbn; tauto) A3 F3 Eb) as (ob & Eob & Kob).
    destruct (looks_up_list _ _ _ P _ _ _ "MSISDN" "MSISDNS_B" _ _ _ _ I6 ltac:(cbn; tauto) A4 F4 Eb) as (mb & Emb & Kmb).
    pose proof (applied _ _ _ P _ _ _ _ I7 (select_sims_rows (k_order c) ["MSISDNS_A"; "OPERATORS_A"; "A_SIMS"; "MAIN_ACCTS_A"; "MSISDNS_B"; "OPERATORS_B"; "B_SIMS"]%string eq_refl)) as E. cbn [map] in E. rewrite Ea, Eb, Eoa, Ema, Eaa, Eob, Emb in E.
    apply Forall2_length in Koa, Kma, Kob, Kmb. pose proof (Forall2_length _ _ _ Kaa) as La.
    destruct (do_select_takes (k_order c) ma oa sa aa mb ob sb (ready_order _ _ _ _ _ _ _ R) Na Nb) as (i & j & v1 & v2 & v3 & v4 & v5 & v6 & v7 & Ed & _ & _ & G3 & G4 & _); try congruence.
    unfold chosen in E. rewrite Ed in E. injection E as _ _ E3 E4 _ _ _. split; [exact Ha|]. split; [exact Hb|]. rewrite E3, E4. split; [apply Ia; exact (nth_error_In _ _ G3)|].
    destruct (Forall2_nth_error_r _ _ _ _ _ Kaa G4) as (k & _ & K). apply K. cbn. tauto.
  Qed.
  Lemma select_runs s before d : st_field s = "A_ID"%string -> st_ids s = subs -> incl (firstn 6 (compute_ab_fields c)) before ->
    (forall line, In line (df_rows d) -> exists row, possible_row kinds w s before row /\
       snd line = map row ["MSISDNS_A"; "OPERATORS_A"; "A_SIMS"; "MAIN_ACCTS_A"; "MSISDNS_B"; "OPERATORS_B"; "B_SIMS"]%string) ->
    forall line, In line (df_rows d) -> exists l, do_select (k_order c) (snd line) = Ok l.
  Proof.
    intros Hf Hi I H line Hl. destruct (H _ Hl) as (row & P & ->). destruct (fc_attributes F) as (_ & _ & A3 & A4 & A5 & _).
    pose proof (ready_operator _ _ _ _ _ _ _ R) as F3. pose proof (ready_msisdn _ _ _ _ _ _ _ R) as F4. pose proof (ready_main_acct _ _ _ _ _ _ _ R) as F5.
    assert (I3 := I _ (or_intror (or_intror (or_introl eq_refl)))). assert (I4 := I _ (or_intror (or_intror (or_intror (or_introl eq_refl))))).
    assert (I5 := I _ (or_intror (or_intror (or_intror (or_intror (or_introl eq_refl)))))). assert (I6 := I _ (or_intror (or_intror (or_intror (or_intror (or_intror (or_introl eq_refl))))))).
    destruct (owns _ _ _ P _ _ I3) as (Ha & sa & Ea & Na & Ia & _). destruct (owns _ _ _ P _ _ I5) as (Hb & sb & Eb & Nb & _ & _).
    destruct (looks_up_list _ _ _ P _ _ _ "OPERATOR" "OPERATORS_A" _ _ _ _ I4 ltac:(cbn; tauto) A3 F3 Ea) as (oa & Eoa & Koa).
    destruct (looks_up_list _ _ _ P _ _ _ "MSISDN" "MSISDNS_A" _ _ _ _ I4 ltac:(cbn; tauto) A4 F4 Ea) as (ma & Ema & Kma).
    destruct (looks_up_list _ _ _ P _ _ _ "MAIN_ACCT" "MAIN_ACCTS_A" _ _ _ _ I4 ltac:(cbn; tauto) A5 F5 Ea) as (aa & Eaa & Kaa).
    destruct (looks_up_list _ _ _ P _ _ _ "OPERATOR" "OPERATORS_B" _ _ _ _ I6 ltac:(cbn; tauto) A3 F3 Eb) as (ob & Eob & Kob).
    destruct (looks_up_list _ _ _ P _ _ _ "MSISDN" "MSISDNS_B" _ _ _ _ I6 ltac:(cbn; tauto) A4 F4 Eb) as (mb & Emb & Kmb).
    apply Forall2_length in Koa, Kma, Kob, Kmb, Kaa.
    cbn [map]. rewrite Ea, Eb, Eoa, Ema, Eaa, Eob, Emb.
    destruct (do_select_takes (k_order c) ma oa sa aa mb ob sb (ready_order _ _ _ _ _ _ _ R) Na Nb) as (i & j & v1 & v2 & v3 & v4 & v5 & v6 & v7 & Ed & _); try congruence. eauto.
  Qed.

  (** ** The stories *)
  Lemma back_safe a s field members ops judge before cols : cdr_story w a s field members ops -> In (OpBack a judge) (st_ops s) -> safe_ops kinds w s before cols [OpBack a judge].
  Proof.
    intros (Hs & _ & _) Hj. apply (safe_step _ _ _ _ _ _ []); [left; reflexivity|reflexivity| |apply safe_end]. cbn [safe_on].
    split; [exists s; exact Hs|]. split; [intros i Hi; exists s; auto|]. destruct (ready_judges _ _ _ _ _ _ _ R _ _ _ Hs Hj) as [N K]. split; [exact N|]. exact K.
  Qed.
  Lemma logger_safe s id names before cols ops : forallb (fun x => mem x cols) names = true -> safe_ops kinds w s (before ++ [OpFieldLogger id names []]) cols ops ->
    safe_ops kinds w s before cols (OpFieldLogger id names [] :: ops).
  Proof.
    intros H K. apply (safe_step _ _ _ _ _ _ []); [left; reflexivity|reflexivity|now apply incl_check|]. now rewrite app_nil_r.
  Qed.

  Ltac there := cbn; repeat (first [left; reflexivity|right]).
  Ltac within := let o := fresh in let E := fresh in intros o E; cbn in E; repeat (destruct E as [<-|E]; [there|]); destruct E.
  Ltac step new := apply (safe_step kinds w _ _ _ _ new); [left; reflexivity|reflexivity| |cbn [app]].

  Lemma break_down_safe s judge : cdr_story w 0 s "CELL_ID" cells (break_down_ops src unhealthy (k_health c) 1) -> In (OpBack 0 judge) (st_ops s) ->
    safe_ops kinds w s [] ["CELL_ID"%string] (break_down_ops src unhealthy (k_health c) 1 ++ [OpBack 0 judge]).
  Proof.
    intros Hs Hj. pose proof Hs as (_ & Hf & Hi & _). destruct (ready_gens _ _ _ _ _ _ _ R) as (Gu & _).
    unfold break_down_ops, field_logger. cbn [app].
    step ["NEW_HEALTH_LEVEL"%string]; [exact (proj1 Gu)|].
    step (@nil string).
    { cbn [safe_on]. split; [apply incl_check; reflexivity|]. split; [exact (filled_single _ _ _ (ready_health _ _ _ _ _ _ _ R))|]. rewrite Hf. split; [exists (fun x => x); reflexivity|].
      intros row P. apply kinds_number; [exact health_not_cell|]. apply (generated _ _ _ P _ _ Gu). there. }
    step (@nil string).
    { cbn [safe_on]. split; [there|]. split; [exact (story_there 1 _ eq_refl)|]. intros row [P _]. right. apply (member_in 1 _ _ _ _ eq_refl). now rewrite Hf, Hi in P. }
    step ["TIME"%string]; [intros _; exact (ready_step _ _ _ _ _ _ _ R)|].
    apply logger_safe; [reflexivity|]. exact (back_safe _ _ _ _ _ _ _ _ Hs Hj).
  Qed.
  Lemma repair_safe s judge : cdr_story w 1 s "CELL_ID" cells (repair_ops src healthy (k_health c)) -> In (OpBack 1 judge) (st_ops s) ->
    safe_ops kinds w s [] ["CELL_ID"%string] (repair_ops src healthy (k_health c) ++ [OpBack 1 judge]).
  Proof.
    intros Hs Hj. pose proof Hs as (_ & Hf & Hi & _). destruct (ready_gens _ _ _ _ _ _ _ R) as (_ & Gh & _).
    unfold repair_ops, field_logger. cbn [app].
    step ["NEW_HEALTH_LEVEL"%string]; [exact (proj1 Gh)|].
    step (@nil string).
    { cbn [safe_on]. split; [apply incl_check; reflexivity|]. split; [exact (filled_single _ _ _ (ready_health _ _ _ _ _ _ _ R))|]. rewrite Hf. split; [exists (fun x => x); reflexivity|].
      intros row P. apply kinds_number; [exact health_not_cell|]. apply (generated _ _ _ P _ _ Gh). there. }
    step ["TIME"%string]; [intros _; exact (ready_step _ _ _ _ _ _ _ R)|].
    apply logger_safe; [reflexivity|]. exact (back_safe _ _ _ _ _ _ _ _ Hs Hj).
  Qed.

  (** Looking attributes up: single members, and lists of SIM cards. *)
  Lemma lookup_one p from (select : list (string * string)) ids (possible : record -> Prop) members member cols :
    (forall name named, In (name, named) select -> exists x ok, has_attribute w p name x /\ filled w x ids ok) ->
    (forall row, possible row -> In (row from) ids) -> (forall k, In k ids -> In k subs \/ In k sims \/ In k cells) ->
    safe_on kinds w members member cols possible (OpLookup p from select).
  Proof.
    intros H Hp Hk attribute named Hin. destruct (H _ _ Hin) as (x & ok & (po & H1 & H2) & (t & H3 & H4 & H5 & _)). exists po, x, t. repeat (split; [assumption|]). left.
    intros row Hr. split; [now apply H5, Hp|]. intros l. apply plain_id. now apply Hk, Hp.
  Qed.
  Lemma lookup_list p from (select : list (string * string)) ids (possible : record -> Prop) members member cols :
    (forall name named, In (name, named) select -> exists x ok, has_attribute w p name x /\ filled w x ids ok) ->
    (forall row, possible row -> exists l, row from = VList l /\ incl l ids) -> safe_on kinds w members member cols possible (OpLookup p from select).
  Proof.
    intros H Hp attribute named Hin. destruct (H _ _ Hin) as (x & ok & (po & H1 & H2) & (t & H3 & H4 & H5 & _)). exists po, x, t. repeat (split; [assumption|]). right.
    intros row Hr. destruct (Hp _ Hr) as (l & E & K). exists l. split; [exact E|]. intros y Hy. auto.
  Qed.

  Lemma mobility_safe s judge : cdr_story w 2 s "A_ID" subs (cdr_mobility c) -> In (OpBack 2 judge) (st_ops s) ->
    safe_ops kinds w s [] ["A_ID"%string] (cdr_mobility c ++ [OpBack 2 judge]).
  Proof.
    intros Hs Hj. pose proof Hs as (_ & Hf & Hi & _). destruct (fc_attributes F) as (A1 & _).
    assert (Ha : forall before row, possible_row kinds w s before row -> In (row "A_ID"%string) subs) by (intros before row [P _]; now rewrite Hf, Hi in P).
    unfold cdr_mobility. cbn [app].
    step ["PREV_CELL"%string].
    { apply (lookup_one _ _ _ subs); [|apply Ha|tauto]. intros name named [[= <- <-]|[]]. exists (k_cell c). eexists. split; [exact A1|exact (ready_cell _ _ _ _ _ _ _ R)]. }
    step ["NEW_CELL"%string]; [split; [reflexivity|apply selected, (ready_choices _ _ _ _ _ _ _ R)]|].
    step (@nil string).
    { cbn [safe_on]. split; [apply incl_check; reflexivity|]. split; [exact (filled_single _ _ _ (ready_cell _ _ _ _ _ _ _ R))|]. rewrite Hf. split; [exists (fun x => x); reflexivity|].
      intros row P. pose proof (Ha _ _ P) as Hin. split.
      - intros _. destruct (told_by _ _ _ P (OpSelectOne (k_possible_cells c) "A_ID" "NEW_CELL" false false false None)) as ((date & T) & _); [there|]. unfold tells in T. cbn [tells_given] in T.
        destruct (T (steady _)) as [K|(_ & _ & K)]; [exact K|]. exfalso. exact (ready_possible _ _ _ _ _ _ _ R _ Hin K).
      - pose proof (fc_distinct F) as N. intros K. exfalso. inversion N as [|? ? N1 _]. apply N1. cbn in *. tauto. }
    step ["TIME"%string]; [intros _; exact (ready_step _ _ _ _ _ _ _ R)|].
    apply logger_safe; [reflexivity|]. exact (back_safe _ _ _ _ _ _ _ _ Hs Hj).
  Qed.

  Lemma binary_safe f a b n members member cols (possible : record -> Prop) : (forall row, possible row -> a_number (row a) /\ a_number (row b)) ->
    safe_on kinds w members member cols possible (OpApply [a; b] [n] (np_binary f)).
  Proof.
    intros H. right. intros d Hc Nd Hd. destruct (np_binary_runs f d) as (out & E & Ec & Ei).
    { intros row Hr. destruct (Hd _ Hr) as (r & P & E). destruct (H _ P) as ((x & Ex) & (y & Ey)). exists x, y. rewrite E. cbn. now rewrite Ex, Ey. }
    exists out. split; [exact E|]. rewrite Ec, Ei. split; [apply one_nodup|exact Nd].
  Qed.

  Lemma topups_safe s judge : cdr_story w 3 s "SIM_ID" sims (cdr_topups c) -> In (OpBack 3 judge) (st_ops s) ->
    safe_ops kinds w s [] ["SIM_ID"%string] (cdr_topups c ++ [OpBack 3 judge]).
  Proof.
    intros Hs Hj. pose proof Hs as (_ & Hf & Hi & _). destruct (fc_attributes F) as (_ & _ & A3 & A4 & A5 & _). destruct (ready_gens _ _ _ _ _ _ _ R) as (_ & _ & Gr & _).
    assert (Ha : forall before row, possible_row kinds w s before row -> In (row "SIM_ID"%string) sims) by (intros before row [P _]; now rewrite Hf, Hi in P).
    assert (Old : forall before row, possible_row kinds w s before row -> In (nth 0 (cdr_topups c) (OpDropRow "")) before -> a_number (row "MAIN_ACCT_OLD"%string)).
    { intros before row P I. refine (proj2 (looks_up _ _ _ P _ _ _ "MAIN_ACCT" "MAIN_ACCT_OLD" (k_main_acct c) _ _ I _ A5 (ready_main_acct _ _ _ _ _ _ _ R) _) _); [cbn; tauto| |cbn; tauto].
      intros l. apply plain_id. right. left. exact (Ha _ _ P). }
    unfold cdr_topups. cbn [app].
    step ["CUSTOMER_NUMBER"; "OPERATOR"; "MAIN_ACCT_OLD"]%string.
    { apply (lookup_one _ _ _ sims); [|apply Ha|tauto]. intros name named [[= <- <-]|[[= <- <-]|[[= <- <-]|[]]]]; eexists _, _; (split; [eassumption|]); apply R. }
    step ["AGENT"%string]; [split; [reflexivity|apply selected, (ready_choices _ _ _ _ _ _ _ R)]|].
    step ["VALUE"%string]; [exact (proj1 Gr)|].
    apply (safe_step kinds w _ _ _ _ ["MAIN_ACCT"%string]); [left; apply add_binary|reflexivity| |cbn [app]].
    { apply binary_safe. intros row P. split; [apply (generated _ _ _ P _ _ Gr); there|apply (Old _ _ P); there]. }
    step (@nil string).
    { cbn [safe_on]. split; [apply incl_check; reflexivity|]. split; [exact (filled_single _ _ _ (ready_main_acct _ _ _ _ _ _ _ R))|]. rewrite Hf. split; [exists (fun x => x); reflexivity|].
      intros row P. apply kinds_number; [exact acct_not_cell|]. apply (added _ _ _ P Qcplus "VALUE" "MAIN_ACCT_OLD"); [there|apply (generated _ _ _ P _ _ Gr); there|apply (Old _ _ P); there]. }
    step ["TIME"%string]; [intros _; exact (ready_step _ _ _ _ _ _ _ R)|].
    apply logger_safe; [reflexivity|]. exact (back_safe _ _ _ _ _ _ _ _ Hs Hj).
  Qed.

  Lemma cell_facts s before row from cn en : possible_row kinds w s before row -> In (OpLookup (k_subs c) from [("CELL", cn); ("EXCITABILITY", en)]%string) before -> In (row from) subs ->
    In (row cn) cells /\ a_number (row en).
  Proof.
    intros P I Hin. destruct (fc_attributes F) as (A1 & A2 & _). assert (Hl : forall l, row from <> VList l) by (intros l; apply plain_id; tauto).
    destruct (looks_up _ _ _ P _ _ _ "CELL" cn _ _ _ I ltac:(cbn; tauto) A1 (ready_cell _ _ _ _ _ _ _ R) Hl) as [K _].
    destruct (looks_up _ _ _ P _ _ _ "EXCITABILITY" en _ _ _ I ltac:(cbn; tauto) A2 (ready_excitability _ _ _ _ _ _ _ R) Hl) as [_ K2].
    split; [exact (ready_cells _ _ _ _ _ _ _ R _ _ (K eq_refl))|apply K2; cbn; tauto].
  Qed.
  Lemma health_facts s before row from hn : possible_row kinds w s before row -> In (OpLookup (k_cells c) from [("HEALTH", hn)]%string) before -> In (row from) cells -> a_number (row hn).
  Proof.
    intros P I Hin. destruct (fc_attributes F) as (_ & _ & _ & _ & _ & A6).
    refine (proj2 (looks_up _ _ _ P _ _ _ "HEALTH" hn _ _ _ I _ A6 (ready_health _ _ _ _ _ _ _ R) _) _); [cbn; tauto|intros l; apply plain_id; tauto|cbn; tauto].
  Qed.
  Lemma trigger_safe g named observed members member cols (possible : record -> Prop) : takes_numbers w g -> (forall row, possible row -> a_number (row observed)) ->
    safe_on kinds w members member cols possible (OpGenerateDep g named observed).
  Proof. intros (proba & b & Hg & K) H. cbn [safe_on]. rewrite Hg. intros row P. destruct (H _ P) as (q & ->). apply K. Qed.

  Definition prefix : list op := compute_ab_fields c ++ compute_cell_status c.
  Definition prefix_cols : list string :=
    ["A_ID"; "DATETIME"; "B_ID"; "A_SIMS"; "OPERATORS_A"; "MSISDNS_A"; "MAIN_ACCTS_A"; "B_SIMS"; "OPERATORS_B"; "MSISDNS_B";
     "MSISDN_A"; "OPERATOR_A"; "SIM_A"; "MAIN_ACCT_OLD"; "MSISDN_B"; "OPERATOR_B"; "SIM_B"; "TYPE";
     "CELL_A"; "EXCITABILITY_A"; "CELL_B"; "EXCITABILITY_B"; "CELL_A_HEALTH"; "CELL_B_HEALTH"; "CELL_A_ACCEPTS"; "CELL_B_ACCEPTS"; "STATUS"]%string.

  Lemma prefix_safe s rest : st_field s = "A_ID"%string -> st_ids s = subs -> safe_ops kinds w s prefix prefix_cols rest -> safe_ops kinds w s [] ["A_ID"%string] (prefix ++ rest).
  Proof.
    intros Hf Hi K. destruct (fc_attributes F) as (A1 & A2 & A3 & A4 & A5 & A6). destruct (ready_triggers _ _ _ _ _ _ _ R) as (Tf & _).
    assert (Ha : forall before row, possible_row kinds w s before row -> In (row "A_ID"%string) subs) by (intros before row [P _]; now rewrite Hf, Hi in P).
    assert (Hr : related_to w (k_sims_of c)) by (destruct (ready_strings _ _ _ _ _ _ _ R) as (rel & E & _); exists rel; exact E).
    unfold prefix, compute_ab_fields, compute_cell_status. cbn [app].
    step ["DATETIME"%string]; [intros _; exact (ready_step _ _ _ _ _ _ _ R)|].
    step ["B_ID"%string]; [split; [reflexivity|apply selected, (ready_choices _ _ _ _ _ _ _ R)]|].
    apply (safe_step kinds w _ _ _ _ ["A_SIMS"%string]); [right; do 3 eexists; split; reflexivity|reflexivity|split; [reflexivity|exact Hr]|cbn [app]].
    step ["OPERATORS_A"; "MSISDNS_A"; "MAIN_ACCTS_A"]%string.
    { apply (lookup_list _ _ _ sims).
      - intros name named [[= <- <-]|[[= <- <-]|[[= <- <-]|[]]]]; eexists _, _; (split; [eassumption|]); apply R.
      - intros row P. destruct (owns _ _ _ P "A_ID" "A_SIMS") as (_ & ts & E & _ & _ & I); [there|]. eauto. }
    apply (safe_step kinds w _ _ _ _ ["B_SIMS"%string]); [right; do 3 eexists; split; reflexivity|reflexivity|split; [reflexivity|exact Hr]|cbn [app]].
    step ["OPERATORS_B"; "MSISDNS_B"]%string.
    { apply (lookup_list _ _ _ sims).
      - intros name named [[= <- <-]|[[= <- <-]|[]]]; eexists _, _; (split; [eassumption|]); apply R.
      - intros row P. destruct (owns _ _ _ P "B_ID" "B_SIMS") as (_ & ts & E & _ & _ & I); [there|]. eauto. }
    apply (safe_step kinds w _ _ _ _ ["MSISDN_A"; "OPERATOR_A"; "SIM_A"; "MAIN_ACCT_OLD"; "MSISDN_B"; "OPERATOR_B"; "SIM_B"]%string); [|reflexivity| |cbn [app]].
    { left. apply add_sims; [apply nodupb_NoDup; reflexivity|reflexivity|reflexivity]. }
    { right. intros d Hc Nd Hd. destruct (select_sims_runs (k_order c) d) as (out & E & N & Ei).
      - rewrite Hc. apply nodupb_NoDup. reflexivity.
      - refine (select_runs s _ d Hf Hi _ Hd). within.
      - exists out. split; [exact E|]. split; [exact N|]. now rewrite Ei. }
    apply (safe_step kinds w _ _ _ _ ["TYPE"%string]); [left; apply add_type|reflexivity| |cbn [app]].
    { right. intros d Hc Nd Hd. rewrite (cdr_type_computes _ Hc). eexists. split; [reflexivity|]. split; [apply one_nodup|]. unfold df_index in *. cbn [df_rows]. rewrite map_map. exact Nd. }
    step ["CELL_A"; "EXCITABILITY_A"]%string.
    { apply (lookup_one _ _ _ subs); [|apply Ha|tauto]. intros name named [[= <- <-]|[[= <- <-]|[]]]; eexists _, _; (split; [eassumption|]); apply R. }
    assert (Hb : forall before row, possible_row kinds w s before row -> In (OpSelectAll (k_sims_of c) "B_ID" "B_SIMS") before -> In (row "B_ID"%string) subs).
    { intros before row P I. exact (proj1 (owns _ _ _ P _ _ I)). }
    step ["CELL_B"; "EXCITABILITY_B"]%string.
    { apply (lookup_one _ _ _ subs); [|intros row P; apply (Hb _ _ P); there|tauto]. intros name named [[= <- <-]|[[= <- <-]|[]]]; eexists _, _; (split; [eassumption|]); apply R. }
    step ["CELL_A_HEALTH"]%string.
    { apply (lookup_one _ _ _ cells); [|intros row P; refine (proj1 (cell_facts _ _ _ "A_ID" "CELL_A" "EXCITABILITY_A" P _ (Ha _ _ P))); there|tauto].
      intros name named [[= <- <-]|[]]; eexists _, _; (split; [eassumption|]); apply R. }
    step ["CELL_B_HEALTH"]%string.
    { apply (lookup_one _ _ _ cells); [|intros row P; refine (proj1 (cell_facts _ _ _ "B_ID" "CELL_B" "EXCITABILITY_B" P _ (Hb _ _ P _))); there|tauto].
      intros name named [[= <- <-]|[]]; eexists _, _; (split; [eassumption|]); apply R. }
    step ["CELL_A_ACCEPTS"]%string.
    { apply trigger_safe; [exact Tf|]. intros row P. refine (health_facts _ _ _ "CELL_A" _ P _ (proj1 (cell_facts _ _ _ "A_ID" "CELL_A" "EXCITABILITY_A" P _ (Ha _ _ P)))); there. }
    step ["CELL_B_ACCEPTS"]%string.
    { apply trigger_safe; [exact Tf|]. intros row P. refine (health_facts _ _ _ "CELL_B" _ P _ (proj1 (cell_facts _ _ _ "B_ID" "CELL_B" "EXCITABILITY_B" P _ (Hb _ _ P _)))); there. }
    apply (safe_step kinds w _ _ _ _ ["STATUS"%string]); [left; apply add_status|reflexivity| |cbn [app]; exact K].
    right. intros d Hc Nd Hd. rewrite call_status_computes.
    - eexists. split; [reflexivity|]. split; [apply one_nodup|]. unfold df_index in *. cbn [df_rows]. rewrite map_map. exact Nd.
    - exact Hc.
    - intros line Hl. destruct (Hd _ Hl) as (row & P & ->). destruct (triggered _ _ _ P (k_flat c) "CELL_A_ACCEPTS" "CELL_A_HEALTH" Tf) as (x & Ex); [there|].
      destruct (triggered _ _ _ P (k_flat c) "CELL_B_ACCEPTS" "CELL_B_HEALTH" Tf) as (y & Ey); [there|]. exists x, y. cbn [map]. now rewrite Ex, Ey.
  Qed.

  (** The rest of the stories of calls and of messages, given columns among which there is the value. *)
  Definition tail : list op := update_accounts c ++ trigger_topups c ++ get_bursty c.
  Definition owner (sim : val) : val := match find (fun k => mem sim (items w (k_sims_of c) k)) subs with Some k => k | None => VNA end.
  Lemma owner_is k sim : In sim (items w (k_sims_of c) k) -> owner sim = k.
  Proof.
    intros H. unfold owner. destruct (find _ subs) as [k'|] eqn:E.
    - apply find_some in E as [_ E]. apply mem_In in E. exact (ready_owner _ _ _ _ _ _ _ R _ _ _ E H).
    - exfalso. pose proof (find_none _ _ E k (proj1 (ready_owners _ _ _ _ _ _ _ R _ _ H))) as K. cbn in K. apply mem_not_In in K. contradiction.
  Qed.
  Lemma tail_safe s middle new rest : st_field s = "A_ID"%string -> st_ids s = subs ->
    (forall row, possible_row kinds w s (prefix ++ middle) row -> a_number (row "VALUE"%string)) ->
    In (new, middle) [(["PRODUCT"; "DURATION"; "VALUE"]%string, [OpGenerate (k_voice c) "PRODUCT" None; OpGenerate (k_duration c) "DURATION" None; OpApply ["DURATION"; "DATETIME"; "TYPE"]%string ["VALUE"%string] compute_call_value]);
                      (["PRODUCT"; "VALUE"]%string, [OpGenerate (k_text c) "PRODUCT" None; OpApply ["DATETIME"; "TYPE"]%string ["VALUE"%string] compute_sms_value])] ->
    safe_ops kinds w s (prefix ++ middle ++ tail) (prefix_cols ++ new ++ ["MAIN_ACCT_NEW"; "SHOULD_TOP_UP"; "A_GETTING_BURSTY"; "B_GETTING_BURSTY"]%string) rest ->
    safe_ops kinds w s (prefix ++ middle) (prefix_cols ++ new) (tail ++ rest).
  Proof.
    intros Hf Hi HV Hm K. destruct (ready_triggers _ _ _ _ _ _ _ R) as (Tf & Tr). destruct (fc_numbers F) as (N3 & N4 & N5).
    assert (Sims : forall before row, possible_row kinds w s (prefix ++ middle ++ before) row -> In (row "A_ID"%string) subs /\ In (row "B_ID"%string) subs /\
      In (row "SIM_A"%string) (items w (k_sims_of c) (row "A_ID"%string)) /\ a_number (row "MAIN_ACCT_OLD"%string)).
    { intros before row P. apply (simcards _ _ _ Hf Hi P). intros o Ho. apply in_or_app. left. unfold prefix. apply in_or_app. left. cbn in Ho |- *. tauto. }
    assert (Val : forall before row, possible_row kinds w s (prefix ++ middle ++ before) row -> a_number (row "VALUE"%string)).
    { intros before row (P1 & (date & P2) & P3). apply HV. rewrite app_assoc, Forall_app in P2, P3. split; [exact P1|]. split; [exists date; apply P2|apply P3]. }
    assert (Exc : forall before row, possible_row kinds w s (prefix ++ middle ++ before) row -> a_number (row "EXCITABILITY_A"%string) /\ a_number (row "EXCITABILITY_B"%string)).
    { intros before row P. destruct (Sims _ _ P) as (Ha & Hb & _). split.
      - refine (proj2 (cell_facts _ _ _ "A_ID" "CELL_A" "EXCITABILITY_A" P _ Ha)). apply in_or_app. left. there.
      - refine (proj2 (cell_facts _ _ _ "B_ID" "CELL_B" "EXCITABILITY_B" P _ Hb)). apply in_or_app. left. there. }
    assert (New : forall before row, possible_row kinds w s (prefix ++ middle ++ before) row -> In (nth 0 (update_accounts c) (OpDropRow "")) before -> a_number (row "MAIN_ACCT_NEW"%string)).
    { intros before row P I. apply (added _ _ _ P Qcminus "MAIN_ACCT_OLD" "VALUE"); [do 2 (apply in_or_app; right); exact I|apply (Sims _ _ P)|apply (Val _ _ P)]. }
    assert (Flag : forall before row g named observed, possible_row kinds w s (prefix ++ middle ++ before) row -> takes_numbers w g -> In (OpGenerateDep g named observed) before -> exists b, row named = VBool b).
    { intros before row g named observed P T I. apply (triggered _ _ _ P g named observed T). do 2 (apply in_or_app; right). exact I. }
    assert (Hsim : forall before row, possible_row kinds w s (prefix ++ middle ++ before) row -> In (row "SIM_A"%string) sims).
    { intros before row P. destruct (Sims _ _ P) as (_ & _ & Hs & _). exact (proj2 (ready_owners _ _ _ _ _ _ _ R _ _ Hs)). }
    assert (Ma : forall a i, a = 4 \/ a = 5 -> In i subs -> member_of w a i) by (intros a i [->| ->] Hin; eapply member_in; try reflexivity; exact Hin).
    assert (Sa : forall a, a = 4 \/ a = 5 -> story_in w a /\ state_in w a "excited"%string).
    { intros a Ha. assert (X : story_in w a) by (destruct Ha as [->| ->]; eapply story_there; reflexivity). split; [exact X|]. destruct X as (s' & E). exists s'. split; [exact E|exact (fc_excited F _ _ Ha E)]. }
    assert (Go : forall before cols o added ops, (adds o added) ->
      safe_on kinds w (st_ids s) (st_field s) ((prefix_cols ++ new) ++ cols) (possible_row kinds w s (prefix ++ middle ++ before)) o ->
      new_ok ((prefix_cols ++ new) ++ cols) added (reads o) = true ->
      safe_ops kinds w s (prefix ++ middle ++ (before ++ [o])) ((prefix_cols ++ new) ++ (cols ++ added)) ops -> safe_ops kinds w s (prefix ++ middle ++ before) ((prefix_cols ++ new) ++ cols) (o :: ops)).
    { intros before cols o added' ops Ad Sf Ok_ Then. apply (safe_step kinds w _ _ _ _ added'); [left; exact Ad|exact Ok_|exact Sf|]. repeat rewrite <- app_assoc in Then. repeat rewrite <- app_assoc. exact Then. }
    replace (prefix ++ middle) with (prefix ++ middle ++ []) by (now rewrite app_nil_r). rewrite <- (app_nil_r (prefix_cols ++ new)).
    assert (Hnew : new = ["PRODUCT"; "DURATION"; "VALUE"]%string \/ new = ["PRODUCT"; "VALUE"]%string) by (destruct Hm as [[= <- _]|[[= <- _]|[]]]; auto).
    assert (Inc : forall cols l, forallb (fun x => mem x (prefix_cols ++ cols)) l = true -> incl l ((prefix_cols ++ new) ++ cols)).
    { intros cols l H. apply incl_check in H. intros x Hx. apply H in Hx. rewrite !in_app_iff in *. tauto. }
    unfold tail, update_accounts, trigger_topups, get_bursty. rewrite N3, N4, N5. cbn [app].
    Ltac checked Hn := destruct Hn as [->| ->]; reflexivity.
    apply (Go [] [] _ ["MAIN_ACCT_NEW"%string]); [apply add_binary| |checked Hnew|cbn [app]].
    { apply binary_safe. intros row P. split; [apply (Sims _ _ P)|apply (Val _ _ P)]. }
    apply (Go _ _ _ []); [reflexivity| |checked Hnew|cbn [app]].
    { cbn [safe_on]. split; [apply Inc; reflexivity|]. split; [exact (filled_single _ _ _ (ready_main_acct _ _ _ _ _ _ _ R))|]. rewrite Hf. split.
      - exists owner. intros row P. apply owner_is. apply (Sims _ _ P).
      - intros row P. apply kinds_number; [exact acct_not_cell|]. apply (New _ _ P). there. }
    apply (Go _ _ _ ["SHOULD_TOP_UP"%string]); [reflexivity| |checked Hnew|cbn [app]].
    { apply trigger_safe; [exact Tr|]. intros row P. apply (New _ _ P). there. }
    apply (Go _ _ _ []); [reflexivity| |checked Hnew|cbn [app]].
    { cbn [safe_on]. split; [apply (Inc _ ["SIM_A"%string]); [reflexivity|now left]|]. split; [intros x [= <-]; apply (Inc _ ["SHOULD_TOP_UP"%string]); [reflexivity|now left]|].
      split; [exact (story_there 3 _ eq_refl)|]. split; [intros row P; apply (Flag _ _ _ _ "MAIN_ACCT_NEW"%string P Tr); there|].
      intros row P. right. apply (member_in 3 _ _ _ _ eq_refl). exact (Hsim _ _ P). }
    apply (Go _ _ _ ["A_GETTING_BURSTY"%string]); [reflexivity| |checked Hnew|cbn [app]].
    { apply trigger_safe; [exact Tf|]. intros row P. apply (Exc _ _ P). }
    assert (Transit : forall before cols a field flag observed, a = 4 \/ a = 5 -> In (field, flag) [("A_ID", "A_GETTING_BURSTY"); ("B_ID", "B_GETTING_BURSTY")]%string -> In flag cols ->
      In (OpGenerateDep (k_flat c) flag observed) before ->
      safe_on kinds w (st_ids s) (st_field s) ((prefix_cols ++ new) ++ cols) (possible_row kinds w s (prefix ++ middle ++ before)) (OpTransit a field (inr "excited"%string) (Some flag))).
    { intros before cols a field flag observed Ha Hff Hfl Hd. cbn [safe_on]. split; [|split; [|split; [|split; [|split]]]].
      - apply (Inc _ [field]); [destruct Hff as [[= <- <-]|[[= <- <-]|[]]]; reflexivity|now left].
      - intros x [= <-]. apply in_or_app. now right.
      - apply (Sa _ Ha).
      - intros row P. apply (Flag _ _ _ _ observed P Tf Hd).
      - intros row P. right. apply (Ma _ _ Ha). destruct (Sims _ _ P) as (Xa & Xb & _). destruct Hff as [[= <- <-]|[[= <- <-]|[]]]; assumption.
      - apply (Sa _ Ha). }
    assert (Reset : forall before cols a, a = 4 \/ a = 5 ->
      safe_on kinds w (st_ids s) (st_field s) ((prefix_cols ++ new) ++ cols) (possible_row kinds w s (prefix ++ middle ++ before)) (OpReset a (Some "B_ID"%string))).
    { intros before cols a Ha. cbn [safe_on]. split; [apply (Inc _ ["B_ID"%string]); [reflexivity|now left]|]. split; [apply (Sa _ Ha)|]. intros row P. right. apply (Ma _ _ Ha). apply (Sims _ _ P). }
    apply (Go _ _ _ []); [reflexivity|apply (Transit _ _ _ _ _ "EXCITABILITY_A"%string); [tauto|cbn; tauto|there|there]|checked Hnew|cbn [app]].
    apply (Go _ _ _ []); [reflexivity|apply (Transit _ _ _ _ _ "EXCITABILITY_A"%string); [tauto|cbn; tauto|there|there]|checked Hnew|cbn [app]].
    apply (Go _ _ _ ["B_GETTING_BURSTY"%string]); [reflexivity| |checked Hnew|cbn [app]].
    { apply trigger_safe; [exact Tf|]. intros row P. apply (Exc _ _ P). }
    apply (Go _ _ _ []); [reflexivity|apply (Transit _ _ _ _ _ "EXCITABILITY_B"%string); [tauto|cbn; tauto|there|there]|checked Hnew|cbn [app]].
    apply (Go _ _ _ []); [reflexivity|apply (Transit _ _ _ _ _ "EXCITABILITY_B"%string); [tauto|cbn; tauto|there|there]|checked Hnew|cbn [app]].
    apply (Go _ _ _ []); [reflexivity|apply Reset; tauto|checked Hnew|cbn [app]].
    apply (Go _ _ _ []); [reflexivity|apply Reset; tauto|checked Hnew|cbn [app]].
    rewrite <- !app_assoc. revert K. unfold tail, update_accounts, trigger_topups, get_bursty. rewrite N3, N4, N5. cbn [app]. intros K. exact K.
  Qed.

  Lemma calls_safe s judge : cdr_story w 4 s "A_ID" subs (flats (cdr_calls c)) -> In (OpBack 4 judge) (st_ops s) ->
    safe_ops kinds w s [] ["A_ID"%string] (flats (cdr_calls c) ++ [OpBack 4 judge]).
  Proof.
    intros Hs Hj. pose proof Hs as (_ & Hf & Hi & _). destruct (ready_gens _ _ _ _ _ _ _ R) as (_ & _ & _ & Gd & Gv & _).
    set (middle := [OpGenerate (k_voice c) "PRODUCT" None; OpGenerate (k_duration c) "DURATION" None; OpApply ["DURATION"; "DATETIME"; "TYPE"]%string ["VALUE"%string] compute_call_value]).
    set (logger := OpFieldLogger "voice_cdr" ["DATETIME"; "MSISDN_A"; "MSISDN_B"; "STATUS"; "DURATION"; "VALUE"; "CELL_A"; "OPERATOR_A"; "CELL_B"; "OPERATOR_B"; "TYPE"; "PRODUCT"]%string []).
    change (flats (cdr_calls c) ++ [OpBack 4 judge]) with (prefix ++ middle ++ tail ++ [logger; OpBack 4 judge]).
    apply (prefix_safe _ _ Hf Hi). unfold middle at 1. cbn [app].
    apply (safe_step kinds w _ _ _ _ ["PRODUCT"%string]); [left; reflexivity|reflexivity|exact Gv|].
    apply (safe_step kinds w _ _ _ _ ["DURATION"%string]); [left; reflexivity|reflexivity|exact (proj1 Gd)|].
    apply (safe_step kinds w _ _ _ _ ["VALUE"%string]); [left; apply add_call_value|reflexivity| |].
    { right. intros d Hc Nd Hd. destruct (call_value_runs d Hc) as (out & E & Ec & Ei).
      - intros line Hl. destruct (Hd _ Hl) as (row & P & ->). cbn [map nth]. apply (generated _ _ _ P _ _ Gd). apply in_or_app. right. now left.
      - exists out. split; [exact E|]. rewrite Ec, Ei. split; [apply one_nodup|exact Nd]. }
    replace (((prefix ++ _) ++ _) ++ _) with (prefix ++ middle) by (now rewrite <- !app_assoc).
    apply (tail_safe s middle ["PRODUCT"; "DURATION"; "VALUE"]%string); [exact Hf|exact Hi| |now left|].
    - intros row P. pose proof (applied _ _ _ P _ _ _ _ ltac:(apply in_or_app; right; right; right; left; reflexivity) call_value_rows) as E. cbn [map nth] in E. injection E as ->.
      destruct (generated _ _ _ P (k_duration c) "DURATION" Gd) as (q & ->); [apply in_or_app; right; right; left; reflexivity|]. cbn [arith vz]. eexists. reflexivity.
    - apply logger_safe; [reflexivity|]. exact (back_safe _ _ _ _ _ _ _ _ Hs Hj).
  Qed.
  Lemma sms_safe s judge : cdr_story w 5 s "A_ID" subs (flats (cdr_sms c)) -> In (OpBack 5 judge) (st_ops s) ->
    safe_ops kinds w s [] ["A_ID"%string] (flats (cdr_sms c) ++ [OpBack 5 judge]).
  Proof.
    intros Hs Hj. pose proof Hs as (_ & Hf & Hi & _). destruct (ready_gens _ _ _ _ _ _ _ R) as (_ & _ & _ & _ & _ & Gt).
    set (middle := [OpGenerate (k_text c) "PRODUCT" None; OpApply ["DATETIME"; "TYPE"]%string ["VALUE"%string] compute_sms_value]).
    set (logger := OpFieldLogger "sms_cdr" ["DATETIME"; "MSISDN_A"; "MSISDN_B"; "STATUS"; "VALUE"; "CELL_A"; "OPERATOR_A"; "CELL_B"; "OPERATOR_B"; "TYPE"; "PRODUCT"]%string []).
    change (flats (cdr_sms c) ++ [OpBack 5 judge]) with (prefix ++ middle ++ tail ++ [logger; OpBack 5 judge]).
    apply (prefix_safe _ _ Hf Hi). unfold middle at 1. cbn [app].
    apply (safe_step kinds w _ _ _ _ ["PRODUCT"%string]); [left; reflexivity|reflexivity|exact Gt|].
    apply (safe_step kinds w _ _ _ _ ["VALUE"%string]); [left; apply add_sms_value|reflexivity| |].
    { right. intros d Hc Nd Hd. eexists. split; [reflexivity|]. split; [apply one_nodup|]. unfold df_index in *. cbn [df_rows]. rewrite map_map. cbn [fst]. now rewrite map_id. }
    replace ((prefix ++ _) ++ _) with (prefix ++ middle) by (now rewrite <- !app_assoc).
    apply (tail_safe s middle ["PRODUCT"; "VALUE"]%string); [exact Hf|exact Hi| |right; now left|].
    - intros row P. pose proof (applied _ _ _ P _ _ _ _ ltac:(apply in_or_app; right; right; left; reflexivity) (sms_value_rows _)) as E. cbn [map] in E. injection E as ->. eexists. reflexivity.
    - apply logger_safe; [reflexivity|]. exact (back_safe _ _ _ _ _ _ _ _ Hs Hj).
  Qed.

  Lemma flat_well_formed_with : well_formed_with kinds w.
  Proof.
    split; [exact (ready_rels _ _ _ _ _ _ _ R)|]. split; [exact respected|]. intros a s Es. split; [exact (ready_stories _ _ _ _ _ _ _ R _ _ Es)|].
    destruct (story_is _ _ Es) as (field & members & ops & X & Hs). pose proof Hs as (_ & -> & _ & judge & Eo).
    assert (Hj : In (OpBack a judge) (st_ops s)) by (rewrite Eo; apply in_or_app; right; now left). rewrite Eo.
    destruct a as [|[|[|[|[|[|a]]]]]]; cbn [nth_error flat_stories] in X; try (injection X as <- <- <-).
    - exact (break_down_safe _ _ Hs Hj).
    - exact (repair_safe _ _ Hs Hj).
    - exact (mobility_safe _ _ Hs Hj).
    - exact (topups_safe _ _ Hs Hj).
    - exact (calls_safe _ _ Hs Hj).
    - exact (sms_safe _ _ Hs Hj).
    - destruct a; discriminate.
  Qed.
  Lemma flat_well_formed : well_formed w.
  Proof. exists kinds. exact flat_well_formed_with. Qed.
End Flat.

(** ** With chains *)
Lemma flat_of w c src unhealthy healthy subs sims cells : cdr_circus w c src unhealthy healthy subs sims cells -> flat_circus (flatten w) c src unhealthy healthy subs sims cells.
Proof.
  intros [(N3 & N4 & N5 & L) H0 H1 H2 H3 H4 H5 A D].
  assert (Fl : forall a s field members ops, cdr_story w a s field members ops -> cdr_story (flatten w) a (flatten_story s) field members (flats ops)).
  { intros a s field members ops (Es & Ef & Ei & judge & Eo). split; [cbn [fw set_stories w_stories]; rewrite nth_error_map, Es; reflexivity|].
    split; [exact Ef|]. split; [exact Ei|]. exists judge. cbn [fs_ with_ops st_ops]. rewrite Eo. unfold flats. rewrite flat_map_app. reflexivity. }
  split.
  - auto.
  - intros a s E. cbn [fw set_stories w_stories] in E. rewrite <- L, <- (map_length flatten_story). apply nth_error_Some. congruence.
  - intros a field members ops E. destruct a as [|[|[|[|[|[|a]]]]]]; cbn [nth_error flat_stories] in E; try (injection E as <- <- <-); try (destruct a; discriminate).
    + destruct H0 as (s & H). eexists. exact (Fl _ _ _ _ _ H).
    + destruct H1 as (s & H). eexists. exact (Fl _ _ _ _ _ H).
    + destruct H2 as (s & H). eexists. exact (Fl _ _ _ _ _ H).
    + destruct H3 as (s & H). eexists. exact (Fl _ _ _ _ _ H).
    + destruct H4 as (s & H & _). eexists. exact (Fl _ _ _ _ _ H).
    + destruct H5 as (s & H & _). eexists. exact (Fl _ _ _ _ _ H).
  - intros a s Ha E. cbn [fw set_stories w_stories] in E. rewrite nth_error_map in E. destruct (nth_error (w_stories w) a) as [s0|] eqn:E0; [|discriminate]. cbn in E. injection E as <-. cbn [fs_ with_ops st_states].
    destruct Ha as [->| ->]; [destruct H4 as (s & (H & _) & K)|destruct H5 as (s & (H & _) & K)]; congruence.
  - exact A.
  - exact D.
Qed.
Lemma ready_flat w c src unhealthy healthy subs sims cells : cdr_circus w c src unhealthy healthy subs sims cells -> cdr_ready w c unhealthy healthy subs sims cells -> cdr_ready (flatten w) c unhealthy healthy subs sims cells.
Proof.
  intros C R. pose proof (ready_judges _ _ _ _ _ _ _ R) as Rj. pose proof (ready_stories _ _ _ _ _ _ _ R) as Rs. destruct R. constructor; try assumption.
  - intros a s judge Es Hj. cbn [fw set_stories w_stories] in Es. rewrite nth_error_map in Es. destruct (nth_error (w_stories w) a) as [s0|] eqn:E0; [|discriminate]. cbn in Es. injection Es as <-.
    cbn [fs_ with_ops st_ops] in Hj. apply (Rj a s0 judge E0).
    destruct (story_is (flatten w) c src unhealthy healthy subs sims cells (flat_of _ _ _ _ _ _ _ _ C) a (flatten_story s0)) as (field & members & ops & X & _).
    { cbn [fw set_stories w_stories]. now rewrite nth_error_map, E0. }
    assert (Own : forall l, (exists j, st_ops s0 = l ++ [OpBack a j]) -> forallb (fun o => match o with OpBack _ _ => false | _ => true end) (flats l) = true -> In (OpBack a judge) (st_ops s0)).
    { intros l (j & El) Hn. rewrite El in Hj |- *. unfold flats in Hj. rewrite flat_map_app in Hj. apply in_app_iff in Hj as [Hj|Hj]; [|cbn in Hj; apply in_or_app; right; exact Hj].
      rewrite forallb_forall in Hn. specialize (Hn _ Hj). discriminate. }
    destruct C as [_ H0 H1 H2 H3 H4 H5 _ _].
    destruct a as [|[|[|[|[|[|a]]]]]]; [destruct H0 as (s & Hs & _ & _ & H)|destruct H1 as (s & Hs & _ & _ & H)|destruct H2 as (s & Hs & _ & _ & H)|
      destruct H3 as (s & Hs & _ & _ & H)|destruct H4 as (s & (Hs & _ & _ & H) & _)|destruct H5 as (s & (Hs & _ & _ & H) & _)|destruct a; discriminate];
      replace s with s0 in H by congruence; apply (Own _ H); reflexivity.
  - intros a s Es. cbn [fw set_stories w_stories] in Es. rewrite nth_error_map in Es. destruct (nth_error (w_stories w) a) as [s0|] eqn:E0; [|discriminate]. cbn in Es. injection Es as <-.
    exact (Rs a s0 E0).
Qed.
Lemma cdr_well_formed w c src unhealthy healthy subs sims cells : cdr_circus w c src unhealthy healthy subs sims cells -> cdr_ready w c unhealthy healthy subs sims cells -> well_formed (flatten w).
Proof. intros C R. exact (flat_well_formed _ c src unhealthy healthy subs sims cells (flat_of _ _ _ _ _ _ _ _ C) (ready_flat _ _ _ _ _ _ _ _ C R)). Qed.
