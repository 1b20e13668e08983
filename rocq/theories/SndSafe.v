(** The stories of tests/scenarios/test_snd.py are well formed. *)
From Verif Require Import Base BaseFacts Rng Utils UtilsFacts Relationship RelationshipFacts SpecRelationship Frame Gens Clock SpecClock Attribute SpecAttribute AttributeFacts World Story Ops OpsFacts Helpers
  Circus SpecStory SpecOps OpsProps OpsColumns OpsMore SpecCircus SpecPopulation SpecLocal SpecSupply SpecLedger SpecRecords RecordsProps SpecSafe GeographyLog Geography Cdr SpecCdr CdrFacts CdrProps
  Snd SpecSnd SpecSndReady SndBooks.

Lemma a_count_number v : a_count v -> exists q, v = VNum q.
Proof. intros (n & ->). eexists. reflexivity. Qed.
Lemma a_count_add u q : a_count (VNum u) -> a_count (VNum q) -> a_count (VNum (u + q)%Qc).
Proof.
  intros (n & E) (m & E'). exists (n + m). change (VNum (u + q)%Qc = VNum (qnat (n + m))). change (vnat n) with (VNum (qnat n)) in E. change (vnat m) with (VNum (qnat m)) in E'.
  injection E as ->. injection E' as ->. now rewrite qnat_add.
Qed.
Lemma map_len_runs d : NoDup (df_index d) -> (forall line, In line (df_rows d) -> exists l, snd line = [VList l]) ->
  exists out, map_len d = Ok out /\ NoDup (df_cols out) /\ NoDup (df_index out).
Proof.
  intros Nd H. unfold map_len.
  assert (X : exists rows, mapr (fun row => match snd row with [VList l] => Ok (fst row, [vnat (length l)]) | _ => Err Unmodelled end) (df_rows d) = Ok rows /\ map fst rows = map fst (df_rows d)).
  { unfold df_index in Nd. clear Nd. induction (df_rows d) as [|row rows IH]; cbn [mapr]; [exists []; split; reflexivity|].
    destruct (H row (or_introl eq_refl)) as (l & ->). destruct IH as (r & -> & E); [intros x Hx; apply H; now right|]. cbn [bind]. eexists. split; [reflexivity|]. cbn [map fst]. now rewrite E. }
  destruct X as (rows & -> & E). cbn [bind]. eexists. split; [reflexivity|]. split; [apply one_nodup|]. unfold df_index. cbn [df_rows]. rewrite E. exact Nd.
Qed.

Section Ready.
  Context (w : world) (c : snd_names) (distributors dealers agents : list val).
  Hypothesis F : snd_circus w c distributors dealers agents.
  Hypothesis R : snd_ready w c distributors dealers agents.

  Definition counters (x : nat) (k v : val) : Prop := x = n_to_restock c \/ x = n_bulk_size c -> a_count v.

  Definition snd_stories : list (string * list val * list op) :=
    [("DISTRIBUTOR_ID", distributors, snd_restock c); ("AGENT", agents, snd_purchases c); ("DEALER_ID", dealers, snd_bulk_purchases c);
     ("AGENT", agents, snd_start_holidays c); ("AGENT", agents, snd_stops_holidays c); ("AGENT", agents, snd_reviews c)]%string.
  Lemma snd_story a field members ops : nth_error snd_stories a = Some (field, members, ops) -> exists s, cdr_story w a s field members ops.
  Proof.
    destruct a as [|[|[|[|[|[|a]]]]]]; cbn [nth_error snd_stories]; intros E; try (injection E as <- <- <-); try (destruct a; discriminate);
      [apply (snd_story_restock _ _ _ _ _ F)|apply (snd_story_purchases _ _ _ _ _ F)|apply (snd_story_bulk _ _ _ _ _ F)|apply (snd_story_start _ _ _ _ _ F)|
       apply (snd_story_stops _ _ _ _ _ F)|apply (snd_story_reviews _ _ _ _ _ F)].
  Qed.
  Lemma snd_is a s : nth_error (w_stories w) a = Some s -> exists field members ops, nth_error snd_stories a = Some (field, members, ops) /\ cdr_story w a s field members ops.
  Proof.
    intros E. assert (L : a < 6) by (rewrite <- (snd_six _ _ _ _ _ F); apply nth_error_Some; congruence).
    assert (X : exists x, nth_error snd_stories a = Some x) by (destruct (nth_error snd_stories a) eqn:K; [eauto|apply nth_error_None in K; cbn in K; lia]).
    destruct X as ([[field members] ops] & X). destruct (snd_story _ _ _ _ X) as (s' & H). exists field, members, ops. split; [exact X|].
    assert (s' = s) by (destruct H as [H _]; congruence). now subst.
  Qed.
  Lemma snd_member a field members ops i : nth_error snd_stories a = Some (field, members, ops) -> In i members -> member_of w a i.
  Proof. intros X Hi. destruct (snd_story _ _ _ _ X) as (s & H1 & _ & <- & _). exists s. auto. Qed.
  Lemma snd_there a x : nth_error snd_stories a = Some x -> story_in w a.
  Proof. intros X. destruct x as [[field members] ops]. destruct (snd_story _ _ _ _ X) as (s & H1 & _). exists s. auto. Qed.

  (** What no story touches *)
  Lemma all_ops (P : op -> Prop) : (forall a judge, P (OpBack a judge)) -> Forall P (snd_restock c ++ snd_purchases c ++ snd_bulk_purchases c ++ snd_start_holidays c ++ snd_stops_holidays c ++ snd_reviews c) ->
    forall a s o, nth_error (w_stories w) a = Some s -> In o (st_ops s) -> P o.
  Proof.
    intros B H a s o E Ho. rewrite !Forall_app in H. destruct H as (H0 & H1 & H2 & H3 & H4 & H5). destruct (snd_is _ _ E) as (field & members & ops & X & _ & _ & _ & judge & Eo). rewrite Eo in Ho.
    apply in_app_iff in Ho as [Ho|[<-|[]]]; [|apply B]. revert o Ho. apply Forall_forall.
    destruct a as [|[|[|[|[|[|a]]]]]]; cbn [nth_error snd_stories] in X; try (injection X as _ _ <-; assumption). destruct a; discriminate.
  Qed.
  Lemma who_steady r : r <> n_distro_sims c -> r <> n_dealer_sims c -> r <> n_agent_sims c -> steady_relationship w r.
  Proof.
    intros N1 N2 N3 a s o o' E Ho. revert o'. refine (all_ops (fun o => forall o', part_of o' o -> ~ moves_items r o') _ _ a s o E Ho).
    - intros b judge o' P. inversion P; subst. cbn. tauto.
    - unfold snd_restock, snd_purchases, snd_bulk_purchases, snd_start_holidays, snd_stops_holidays, snd_reviews. cbn [app].
      repeat (apply Forall_cons; [intros o' P; inversion P; subst; cbn [moves_items]; try tauto; try (intros [? K]; try discriminate K; congruence); congruence|]). constructor.
  Qed.
  Lemma distro_steady : steady_relationship w (n_distro_of c).
  Proof. pose proof (snd_stocks _ _ _ _ _ F) as N. rewrite !NoDup_cons_iff in N. cbn [In] in N. apply who_steady; intuition congruence. Qed.
  Lemma dealers_steady : steady_relationship w (n_dealers_of c).
  Proof. pose proof (snd_stocks _ _ _ _ _ F) as N. rewrite !NoDup_cons_iff in N. cbn [In] in N. apply who_steady; intuition congruence. Qed.
  Lemma restock_account : account w (n_to_restock c).
  Proof.
    destruct (ready_to_restock _ _ _ _ _ R) as (t & Et & N & _ & K). split.
    - exists t. split; [exact Et|]. split; [exact N|]. intros k v Hin. destruct (K _ _ Hin) as (n & ->). exact I.
    - intros a s o o' E Ho. revert o'.
      refine (all_ops (fun o => forall o', part_of o' o -> match o' with OpAttrUpdate _ _ _ | OpPopUpdate _ _ _ => ~ changes w o' (OAttribute (n_to_restock c)) | _ => True end) _ _ a s o E Ho).
      + intros b judge o' P. inversion P; subst. exact I.
      + unfold snd_restock, snd_purchases, snd_bulk_purchases, snd_start_holidays, snd_stops_holidays, snd_reviews. cbn [app].
        repeat (apply Forall_cons; [intros o' P; inversion P; subst; try exact I|]); [|constructor].
        cbn [changes]. intros [K1|(po & name & x & Hp & Hx & [= <-])]; [discriminate|]. destruct (ready_reviews _ _ _ _ _ R) as (po' & Hp' & _ & H). assert (po' = po) by congruence. subst po'.
        now destruct (H _ _ Hx) as (_ & K1 & _).
  Qed.

  (** The values the attributes hold *)
  Lemma counted : respects counters w.
  Proof.
    intros x t k v Ht Hin [->| ->]; [destruct (ready_to_restock _ _ _ _ _ R) as (t' & Ht' & _ & _ & K)|destruct (ready_bulk_size _ _ _ _ _ R) as (t' & Ht' & _ & _ & K)];
      replace t' with t in K by congruence; exact (K _ _ Hin).
  Qed.
  Lemma plain k l : In k distributors \/ In k dealers \/ In k agents -> k <> VList l.
  Proof. intros H ->. apply (ready_plain _ _ _ _ _ R l). rewrite !in_app_iff. tauto. Qed.
  Lemma choose r : choosable w r -> steady_relationship w r -> selectable w r.
  Proof. intros (rel & H & H1 & H2) St. exists rel. split; [exact H|]. right. split; [exact St|]. split; [exact H1|exact H2]. Qed.

  Lemma back_ok a s field members ops judge before cols : cdr_story w a s field members ops -> In (OpBack a judge) (st_ops s) -> safe_ops counters w s before cols [OpBack a judge].
  Proof.
    intros (Hs & _ & _) Hj. apply (safe_step _ _ _ _ _ _ []); [left; reflexivity|reflexivity| |apply safe_end]. cbn [safe_on].
    split; [exists s; exact Hs|]. split; [intros i Hi; exists s; auto|]. destruct (ready_back _ _ _ _ _ R _ _ _ Hs Hj) as [N K]. split; [exact N|]. exact K.
  Qed.
  Lemma logger_ok s id names before cols ops : forallb (fun x => mem x cols) names = true -> safe_ops counters w s (before ++ [OpFieldLogger id names []]) cols ops ->
    safe_ops counters w s before cols (OpFieldLogger id names [] :: ops).
  Proof. intros H K. apply (safe_step _ _ _ _ _ _ []); [left; reflexivity|reflexivity|now apply incl_check|]. now rewrite app_nil_r. Qed.
  Lemma lookup_ok p from name named x ids ok (possible : record -> Prop) members member cols : has_attribute w p name x -> filled w x ids ok ->
    (forall row, possible row -> In (row from) ids) -> (forall k, In k ids -> In k distributors \/ In k dealers \/ In k agents) ->
    safe_on counters w members member cols possible (OpLookup p from [(name, named)]).
  Proof.
    intros (po & H1 & H2) (t & H3 & H4 & H5 & _) Hp Hk attribute named' [[= <- <-]|[]]. exists po, x, t. repeat (split; [assumption|]). left.
    intros row Hr. split; [now apply H5, Hp|]. intros l. apply plain. now apply Hk, Hp.
  Qed.
  Lemma told_in s before row o : possible_row counters w s before row -> In o before -> (exists date, tells w date o row) /\ of_kind counters w o row.
  Proof. intros (_ & (date & T) & K). rewrite Forall_forall in T, K. intros H. split; [exists date|]; auto. Qed.
  Lemma count_seen s before row p from name x ids : possible_row counters w s before row -> In (OpLookup p from [(name, name)]) before -> has_attribute w p name x ->
    filled w x ids (fun _ => a_count) -> x = n_to_restock c \/ x = n_bulk_size c -> (forall l, row from <> VList l) -> a_count (row name).
  Proof.
    intros P H (po & Hp & Hx) (t & H3 & H4 & _) Hc E. destruct (told_in _ _ _ _ P H) as (_ & K). cbn [of_kind] in K.
    specialize (K _ _ _ _ (or_introl eq_refl) Hp Hx (ex_intro _ t (conj H3 H4))). destruct (row from) eqn:Er; try exact (K Hc). exfalso. exact (E _ eq_refl).
  Qed.

  Ltac there := cbn; repeat (first [left; reflexivity|right]).
  Ltac step new := apply (safe_step counters w _ _ _ _ new); [left; reflexivity|reflexivity| |cbn [app]].

  Lemma restock_ok s judge : cdr_story w restock s "DISTRIBUTOR_ID" distributors (snd_restock c) -> In (OpBack restock judge) (st_ops s) ->
    safe_ops counters w s [] ["DISTRIBUTOR_ID"%string] (snd_restock c ++ [OpBack restock judge]).
  Proof.
    intros Hs Hj. pose proof Hs as (_ & Hf & Hi & _). destruct (snd_attributes _ _ _ _ _ F) as (A1 & _).
    assert (M : forall before row, possible_row counters w s before row -> In (row "DISTRIBUTOR_ID"%string) distributors) by (intros before row [P _]; now rewrite Hf, Hi in P).
    unfold snd_restock. cbn [app].
    step ["DATETIME"%string]; [intros _; exact (ready_tick _ _ _ _ _ R)|].
    step ["SIMS_TO_RESTOCK"%string].
    { apply (lookup_ok _ _ _ _ (n_to_restock c) distributors (fun _ => a_count)); [exact A1|exact (ready_to_restock _ _ _ _ _ R)|apply M|auto]. }
    step ["NEW_SIMS_IDS"%string].
    { split; [apply (snd_sims _ _ _ _ _ F)|]. intros row P. refine (count_seen _ _ row _ _ _ _ _ P _ A1 (ready_to_restock _ _ _ _ _ R) (or_introl eq_refl) _); [there|].
      intros l. apply plain. left. exact (M _ _ P). }
    step (@nil string).
    { split; [apply incl_check; reflexivity|]. split; [apply (snd_reachable _ _ _ _ _ F); cbn; tauto|]. intros row P.
      destruct (told_in _ _ _ (OpGenerate (n_sim_ids c) "NEW_SIMS_IDS" (Some "SIMS_TO_RESTOCK"%string)) P ltac:(there)) as ((date & vs & E & _) & _). eauto. }
    assert (Set_ : forall before cols ops, before = [OpTimestamp "DATETIME" true (n_fmt c)] ++ OpLookup (n_distros c) "DISTRIBUTOR_ID" [("SIMS_TO_RESTOCK", "SIMS_TO_RESTOCK")]%string ::
        [OpGenerate (n_sim_ids c) "NEW_SIMS_IDS" (Some "SIMS_TO_RESTOCK"%string); OpRelAddGrouped (n_distro_sims c) "DISTRIBUTOR_ID" "NEW_SIMS_IDS"] ->
      incl ["DISTRIBUTOR_ID"; "SIMS_TO_RESTOCK"]%string cols ->
      safe_ops counters w s (before ++ [OpAttrAdd (n_to_restock c) "DISTRIBUTOR_ID" "SIMS_TO_RESTOCK" true]) cols ops ->
      safe_ops counters w s before cols (OpAttrAdd (n_to_restock c) "DISTRIBUTOR_ID" "SIMS_TO_RESTOCK" true :: ops)).
    { intros before cols ops Eb Hc K. rewrite <- Hf in Eb, Hc, K |- *.
      refine (safe_settle counters w s before cols (n_to_restock c) "SIMS_TO_RESTOCK" ops _ _ "SIMS_TO_RESTOCK" _ _ Eb (or_introl eq_refl) A1 _ restock_account _ _ _ Hc K).
      - constructor; [|constructor; [|constructor]]; cbn [changes]; [|discriminate]. intros (j0 & E0 & _). discriminate E0.
      - intros k v H. apply a_count_number, H. now left.
      - intros k _. exists 0. reflexivity.
      - intros t i Et Hin. rewrite Hi in Hin. destruct (ready_to_restock _ _ _ _ _ R) as (t' & Et' & _ & H & _). assert (t' = t) by congruence. subst t'.
        split; [now apply H|]. intros l. apply plain. now left. }
    apply Set_; [reflexivity|apply incl_check; reflexivity|].
    apply logger_ok; [reflexivity|]. exact (back_ok _ _ _ _ _ _ _ _ Hs Hj).
  Qed.

  Lemma purchases_ok s judge : cdr_story w purchases s "AGENT" agents (snd_purchases c) -> In (OpBack purchases judge) (st_ops s) ->
    safe_ops counters w s [] ["AGENT"%string] (snd_purchases c ++ [OpBack purchases judge]).
  Proof.
    intros Hs Hj. pose proof Hs as (_ & Hf & Hi & _).
    assert (M : forall before row, possible_row counters w s before row -> In (row "AGENT"%string) agents) by (intros before row [P _]; now rewrite Hf, Hi in P).
    assert (Fl : forall before row, possible_row counters w s before row -> In (OpApply ["SOLD_SIM"%string] ["FAILED_SALE"%string] (series_f isnull)) before -> exists b, row "FAILED_SALE"%string = VBool b).
    { intros before row P H. destruct (told_in _ _ _ _ P H) as ((date & T & _) & _). pose proof (T isnull _ eq_refl (isnull_rows _)) as E. rewrite E. eauto. }
    unfold snd_purchases. cbn [app].
    step ["DATETIME"%string]; [intros _; exact (ready_tick _ _ _ _ _ R)|].
    step ["DEALER"%string]; [split; [reflexivity|]; apply choose; [apply (ready_who _ _ _ _ _ R)|exact dealers_steady]|].
    step ["SOLD_SIM"%string].
    { split; [reflexivity|]. destruct (ready_sims _ _ _ _ _ R) as (rel & E & K). exists rel. split; [exact E|]. left. exact K. }
    apply (safe_step counters w _ _ _ _ ["FAILED_SALE"%string]); [left; apply add_series|reflexivity| |cbn [app]].
    { left. exists "FAILED_SALE"%string, isnull. split; [reflexivity|]. split; [reflexivity|]. intros rows _. rewrite (isnull_rows "SOLD_SIM"%string rows). apply map_length. }
    step (@nil string).
    { split; [there|]. split; [intros k [= <-]; there|]. split; [exact (snd_there 1 _ eq_refl)|]. split; [intros row P; apply (Fl _ _ P); there|]. intros row P. right.
      apply (snd_member 1 _ _ _ _ eq_refl). exact (M _ _ P). }
    apply logger_ok; [reflexivity|]. cbn [app].
    step (@nil string); [intros row P; apply (Fl _ _ P); there|].
    step (@nil string); [split; [apply incl_check; reflexivity|apply (snd_reachable _ _ _ _ _ F); cbn; tauto]|].
    exact (back_ok _ _ _ _ _ _ _ _ Hs Hj).
  Qed.

  Lemma bulk_ok s judge : cdr_story w bulk_purchases s "DEALER_ID" dealers (snd_bulk_purchases c) -> In (OpBack bulk_purchases judge) (st_ops s) ->
    safe_ops counters w s [] ["DEALER_ID"%string] (snd_bulk_purchases c ++ [OpBack bulk_purchases judge]).
  Proof.
    intros Hs Hj. pose proof Hs as (_ & Hf & Hi & _). destruct (snd_attributes _ _ _ _ _ F) as (_ & A2 & _).
    assert (M : forall before row, possible_row counters w s before row -> In (row "DEALER_ID"%string) dealers) by (intros before row [P _]; now rewrite Hf, Hi in P).
    assert (D : forall before row, possible_row counters w s before row -> In (OpSelectOne (n_distro_of c) "DEALER_ID" "DISTRIBUTOR" false false false None) before ->
      row "DISTRIBUTOR"%string = VNA \/ In (row "DISTRIBUTOR"%string) distributors).
    { intros before row P H. destruct (told_in _ _ _ _ P H) as ((date & T) & _). destruct (T distro_steady) as [K|(_ & K & _)]; [right; eapply (ready_distros _ _ _ _ _ R); exact K|now left]. }
    assert (Bk : forall before row, possible_row counters w s before row -> In (OpSelectMany (n_distro_sims c) "DISTRIBUTOR" "SIM_BULK" "BULK_BUY_SIZE" true true) before ->
      exists l, row "SIM_BULK"%string = VList l).
    { intros before row P H. destruct (told_in _ _ _ _ P H) as (_ & K). exact K. }
    assert (Nb : forall before row, possible_row counters w s before row -> In (OpSelectMany (n_distro_sims c) "DISTRIBUTOR" "SIM_BULK" "BULK_BUY_SIZE" true true) before ->
      In (OpApply ["SIM_BULK"%string] ["NUMBER_OF_SIMS"%string] map_len) before -> a_count (row "NUMBER_OF_SIMS"%string)).
    { intros before row P H1 H2. destruct (Bk _ _ P H1) as (l & El). destruct (told_in _ _ _ _ P H2) as ((date & _ & T) & _). specialize (T lengths (map_len_rows _)). cbn [map] in T. rewrite El in T.
      cbn [lengths] in T. injection T as T. exists (length l). exact T. }
    unfold snd_bulk_purchases. cbn [app].
    step ["DATETIME"%string]; [intros _; exact (ready_tick _ _ _ _ _ R)|].
    step ["DISTRIBUTOR"%string]; [split; [reflexivity|]; apply choose; [apply (ready_who _ _ _ _ _ R)|exact distro_steady]|].
    step ["BULK_BUY_SIZE"%string].
    { apply (lookup_ok _ _ _ _ (n_bulk_size c) dealers (fun _ => a_count)); [exact A2|exact (ready_bulk_size _ _ _ _ _ R)|apply M|auto]. }
    step ["SIM_BULK"%string].
    { split; [reflexivity|]. split; [apply (snd_reachable _ _ _ _ _ F); cbn; tauto|]. intros row P.
      refine (count_seen _ _ row _ _ _ _ _ P _ A2 (ready_bulk_size _ _ _ _ _ R) (or_intror eq_refl) _); [there|]. intros l. apply plain. right. left. exact (M _ _ P). }
    step (@nil string).
    { split; [apply incl_check; reflexivity|]. split; [apply (snd_reachable _ _ _ _ _ F); cbn; tauto|]. intros row P. apply (Bk _ _ P). there. }
    apply (safe_step counters w _ _ _ _ ["NUMBER_OF_SIMS"%string]); [left; apply add_len|reflexivity| |cbn [app]].
    { right. intros d _ Nd Hd. apply map_len_runs; [exact Nd|]. intros line Hl. destruct (Hd _ Hl) as (row & P & ->). cbn [map]. destruct (Bk _ _ P ltac:(there)) as (l & ->). eauto. }
    step (@nil string).
    { split; [apply incl_check; reflexivity|]. split; [exact restock_account|]. split; [|split].
      - right. split; [reflexivity|]. split; [intros k v H; apply a_count_number, H; now left|]. intros k u row q Hu P E _.
        apply a_count_add; [apply Hu; now left|]. rewrite <- E. apply (Nb _ _ P); there.
      - intros row P. destruct (Nb _ _ P ltac:(there) ltac:(there)) as (n & ->). exact I.
      - intros t row Et P. destruct (D _ _ P ltac:(there)) as [K|K]; [now left|]. right. destruct (ready_to_restock _ _ _ _ _ R) as (t' & Et' & _ & H & _). assert (t' = t) by congruence. subst t'. now apply H. }
    step (@nil string).
    { split; [there|]. split; [discriminate|]. split; [exact (snd_there 0 _ eq_refl)|]. split; [exact I|]. intros row P. destruct (D _ _ P ltac:(there)) as [K|K]; [now left|]. right.
      exact (snd_member 0 _ _ _ _ eq_refl K). }
    apply logger_ok; [reflexivity|]. exact (back_ok _ _ _ _ _ _ _ _ Hs Hj).
  Qed.

  Lemma start_ok s judge : cdr_story w start_holidays s "AGENT" agents (snd_start_holidays c) -> In (OpBack start_holidays judge) (st_ops s) ->
    safe_ops counters w s [] ["AGENT"%string] (snd_start_holidays c ++ [OpBack start_holidays judge]).
  Proof.
    intros Hs Hj. pose proof Hs as (_ & Hf & Hi & _).
    assert (M : forall before row, possible_row counters w s before row -> In (row "AGENT"%string) agents) by (intros before row [P _]; now rewrite Hf, Hi in P).
    unfold snd_start_holidays. cbn [app].
    step (@nil string).
    { split; [there|]. split; [discriminate|]. split; [exact (snd_there 1 _ eq_refl)|]. split; [exact I|]. split; [intros row P; right; exact (snd_member 1 _ _ _ _ eq_refl (M _ _ P))|].
      exact (ready_holiday _ _ _ _ _ R). }
    step (@nil string).
    { split; [there|]. split; [exact (snd_there 4 _ eq_refl)|]. intros row P. right. exact (snd_member 4 _ _ _ _ eq_refl (M _ _ P)). }
    step ["TIME"%string]; [intros _; exact (ready_tick _ _ _ _ _ R)|].
    step ["STATES"%string]; [apply (ready_made _ _ _ _ _ R)|].
    apply logger_ok; [reflexivity|]. exact (back_ok _ _ _ _ _ _ _ _ Hs Hj).
  Qed.
  Lemma stops_ok s judge : cdr_story w stops_holidays s "AGENT" agents (snd_stops_holidays c) -> In (OpBack stops_holidays judge) (st_ops s) ->
    safe_ops counters w s [] ["AGENT"%string] (snd_stops_holidays c ++ [OpBack stops_holidays judge]).
  Proof.
    intros Hs Hj. pose proof Hs as (_ & Hf & Hi & _).
    assert (M : forall before row, possible_row counters w s before row -> In (row "AGENT"%string) agents) by (intros before row [P _]; now rewrite Hf, Hi in P).
    unfold snd_stops_holidays. cbn [app].
    step (@nil string).
    { split; [there|]. split; [discriminate|]. split; [exact (snd_there 1 _ eq_refl)|]. split; [exact I|]. split; [intros row P; right; exact (snd_member 1 _ _ _ _ eq_refl (M _ _ P))|].
      destruct (snd_there 1 _ eq_refl) as (s1 & E1). exists s1. split; [exact E1|]. now destruct (ready_timers _ _ _ _ _ R _ _ E1) as (_ & K & _). }
    step ["TIME"%string]; [intros _; exact (ready_tick _ _ _ _ _ R)|].
    step ["STATES"%string]; [apply (ready_made _ _ _ _ _ R)|].
    apply logger_ok; [reflexivity|]. exact (back_ok _ _ _ _ _ _ _ _ Hs Hj).
  Qed.
  Lemma reviews_ok s judge : cdr_story w reviews s "AGENT" agents (snd_reviews c) -> In (OpBack reviews judge) (st_ops s) ->
    safe_ops counters w s [] ["AGENT"%string] (snd_reviews c ++ [OpBack reviews judge]).
  Proof.
    intros Hs Hj. pose proof Hs as (_ & Hf & Hi & _). destruct (snd_attributes _ _ _ _ _ F) as (_ & _ & A3 & _).
    assert (M : forall before row, possible_row counters w s before row -> In (row "AGENT"%string) agents) by (intros before row [P _]; now rewrite Hf, Hi in P).
    unfold snd_reviews. cbn [app].
    step ["DATETIME"%string]; [intros _; exact (ready_tick _ _ _ _ _ R)|].
    step ["AGENT_NAME"%string].
    { apply (lookup_ok _ _ _ _ (n_agent_name c) agents (fun _ _ => True)); [exact A3|exact (ready_agent_name _ _ _ _ _ R)|apply M|auto]. }
    step ["REVIEW_ID"%string]; [apply (ready_made _ _ _ _ _ R)|].
    step ["REVIEW_TEXT"%string]; [apply (ready_made _ _ _ _ _ R)|].
    step (@nil string).
    { split; [apply incl_check; reflexivity|]. split; [apply nodupb_NoDup; reflexivity|]. destruct (ready_reviews _ _ _ _ _ R) as (po & Hp & Hn & Hx). exists po. split; [exact Hp|]. split; [exact Hn|].
      intros name copied x _ Ex. destruct (Hx name x (dget_In _ _ _ Ex)) as (Sv & N1 & N2). split; [exact Sv|]. intros row _ [K|K]; contradiction. }
    apply logger_ok; [reflexivity|]. exact (back_ok _ _ _ _ _ _ _ _ Hs Hj).
  Qed.

  Lemma snd_well_formed_with : well_formed_with counters w.
  Proof.
    split; [exact (proj1 (snd_reachable _ _ _ _ _ F))|]. split; [exact counted|]. intros a s Es. split; [exact (ready_timers _ _ _ _ _ R _ _ Es)|].
    destruct (snd_is _ _ Es) as (field & members & ops & X & Hs). pose proof Hs as (_ & -> & _ & judge & Eo).
    assert (Hj : In (OpBack a judge) (st_ops s)) by (rewrite Eo; apply in_or_app; right; now left). rewrite Eo.
    destruct a as [|[|[|[|[|[|a]]]]]]; cbn [nth_error snd_stories] in X; try (injection X as <- <- <-).
    - exact (restock_ok _ _ Hs Hj).
    - exact (purchases_ok _ _ Hs Hj).
    - exact (bulk_ok _ _ Hs Hj).
    - exact (start_ok _ _ Hs Hj).
    - exact (stops_ok _ _ Hs Hj).
    - exact (reviews_ok _ _ Hs Hj).
    - destruct a; discriminate.
  Qed.
  Lemma snd_well_formed : well_formed w.
  Proof. exists counters. exact snd_well_formed_with. Qed.
End Ready.
