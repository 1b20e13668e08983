(** What the records of the logs tell was true when they were logged (C136), and journals of attributes (C137). *)
From Verif Require Import Base BaseFacts Rng Utils Relationship RelationshipFacts SpecRelationship Frame Gens Clock Attribute SpecAttribute AttributeFacts World Story Ops
  Fs Circus SpecStory SpecOps SpecCircus SpecWorld WorldProps SpecPopulation GensKept PopProps SpecLocal CircusProps SpecSupply SpecFs SpecLedger LedgerProps SpecRecords RecordsGens RecordsProps RecordsMore
  SpecNow NowProps SpecJournal JournalProps Samples StorySamples PropCircus PropSupply PropLedger PropRecords.
From Coq Require Import Permutation Sorted.

(** ** C136.  Whatever the stories change, what a record tells was true when the story that logged it started:
    a looked up value is the value that the attribute had then (unless an operation of the same story changed
    it before), a selected item is an item that the member had then (unless an operation before took or added
    some), and so on. *)
Theorem C136_records_true_when_logged w id hs L w' : tidy w id -> Forall reachable (w_rels w) -> emits w hs L w' ->
  exists pasts, Forall2 (logged_then w id hs) pasts (records id L) /\ StronglySorted earlier pasts.
Proof. exact (records_now w id hs L w'). Qed.
Print Assumptions C136_records_true_when_logged.

Theorem C136_lines_true_when_logged duration folder del w fs w' fs' tr id cols :
  run duration folder del w fs = (Ok tt, (w', fs', tr)) -> startable fs folder del -> (0 < Clock.c_step (w_clock w))%Z ->
  tidy w id -> one_header w id cols -> Forall reachable (w_rels w) ->
  exists n pasts, covers (Clock.c_step (w_clock w)) duration n /\
    Forall2 (logged_then w id (steps_of (length (w_stories w)) n)) pasts (recorded fs' folder id) /\ StronglySorted earlier pasts.
Proof.
  intros H St Hs Td Oh R. destruct (run_recorded _ _ _ _ _ _ _ _ H St Hs) as (n & L & Hn & He & Er).
  destruct (records_now w id _ L w' Td R He) as (ps & F & S). exists n, ps. split; [exact Hn|]. now rewrite (Er id cols Oh).
Qed.
Print Assumptions C136_lines_true_when_logged.

(** ** C137.  If the stories change an attribute only by updates that they log, then the attribute can be
    read off the log: the value of a member is the last one logged for it, or the initial one. *)
Theorem C137_journal_tells_value w x b hs L w' : journal_of w x b -> emits w hs L w' ->
  forall k v, holds w' x k v <->
    (exists e1 e2, entries b L = e1 ++ (k, v) :: e2 /\ ~ In k (map fst e2)) \/ ~ In k (map fst (entries b L)) /\ holds w x k v.
Proof. intros J H. exact (proj2 (journal_read w x b hs L w' J H (proj1 J))). Qed.
Print Assumptions C137_journal_tells_value.

(** If the value before is logged too, each record of a member starts from where the previous one ended. *)
Theorem C137_journal_has_no_gaps w x b was hs L w' : journal_of w x b -> tells_before w x b was -> Forall reachable (w_rels w) -> emits w hs L w' ->
  forall k v, single k -> holds w x k v -> exists v', holds w' x k v' /\
    let rs := records_about b k (records (log_of b) L) in
    v :: map (fun r : record => r (what b)) rs = map (fun r : record => r was) rs ++ [v'].
Proof. exact (journal_continues w x b was hs L w'). Qed.
Print Assumptions C137_journal_has_no_gaps.

(** The same for circus.run and the log files it writes. *)
Theorem C137_files_have_no_gaps duration folder del w fs w' fs' tr x b was cols :
  run duration folder del w fs = (Ok tt, (w', fs', tr)) -> startable fs folder del -> (0 < Clock.c_step (w_clock w))%Z ->
  journal_of w x b -> tells_before w x b was -> one_header w (log_of b) cols -> Forall reachable (w_rels w) ->
  forall k v, single k -> holds w x k v -> exists v', holds w' x k v' /\
    let rs := records_about b k (recorded fs' folder (log_of b)) in
    v :: map (fun r : record => r (what b)) rs = map (fun r : record => r was) rs ++ [v'].
Proof.
  intros H St Hs J B Oh R. destruct (run_recorded _ _ _ _ _ _ _ _ H St Hs) as (n & L & _ & He & Er). rewrite (Er _ cols Oh).
  exact (journal_continues w x b was _ L w' J B R He).
Qed.
Print Assumptions C137_files_have_no_gaps.

(** *** The mobility of tests/scenarios/test_cdr.py:284-300 *)
Definition mobility_ops (subs cells x : nat) (fmt : Z -> val) : list op :=
  [OpLookup subs "A_ID" [("CELL", "PREV_CELL")]%string;
   OpSelectOne cells "A_ID" "NEW_CELL" false false false None;
   OpAttrUpdate x "A_ID" "NEW_CELL";
   OpTimestamp "TIME" true fmt;
   OpFieldLogger "mobility_logs" ["TIME"; "A_ID"; "PREV_CELL"; "NEW_CELL"]%string []].
Definition moves : book := Book "mobility_logs" "A_ID" "NEW_CELL".
Record mobility_circus (w : world) (subs cells x a : nat) (fmt : Z -> val) : Prop := {
  mob_story : exists s judge, nth_error (w_stories w) a = Some s /\ st_field s = "A_ID"%string /\ st_ops s = mobility_ops subs cells x fmt ++ [OpBack a judge];
  mob_others : forall b s, b <> a -> nth_error (w_stories w) b = Some s ->
    Forall (apart w (OAttribute x) [moves]) (st_ops s) /\ forall o o', In o (st_ops s) -> part_of o' o -> ~ moves_items cells o';
  mob_cell : single_valued w x /\ exists po, nth_error (w_pops w) subs = Some po /\ dget "CELL"%string (p_attrs po) = Some x
}.

Section Mobility.
  Context (w : world) (subs cells x a : nat) (fmt : Z -> val).
  Hypothesis M : mobility_circus w subs cells x a fmt.
  Let cols : list string := ["TIME"; "A_ID"; "PREV_CELL"; "NEW_CELL"]%string.

  Lemma mobility_quiet b s o c ex : b <> a -> nth_error (w_stories w) b = Some s -> In o (st_ops s) -> ~ part_of (OpFieldLogger "mobility_logs" c ex) o.
  Proof.
    intros N E Ho. destruct (mob_others _ _ _ _ _ _ M b s N E) as [F _]. rewrite Forall_forall in F. destruct (F o Ho) as [_ Q]. apply (Q moves). now left.
  Qed.
  Lemma mobility_builds : builds_up ["A_ID"%string] (firstn 4 (mobility_ops subs cells x fmt)) ["A_ID"; "PREV_CELL"; "NEW_CELL"; "TIME"]%string.
  Proof. unfold mobility_ops. cbn [firstn]. up ["PREV_CELL"%string]. up ["NEW_CELL"%string]. up (@nil string). up ["TIME"%string]. apply built_up. Qed.
  Lemma mobility_tidy : tidy w "mobility_logs".
  Proof.
    intros b s E. destruct (Nat.eq_dec b a) as [->|N]; [left|right; intros o c ex; eapply mobility_quiet; eauto].
    destruct (mob_story _ _ _ _ _ _ M) as (s' & judge & E' & Hf & Ho). assert (s' = s) by congruence. subst s'. rewrite Hf, Ho.
    exists ["A_ID"; "PREV_CELL"; "NEW_CELL"; "TIME"]%string. unfold mobility_ops. cbn [app].
    up ["PREV_CELL"%string]. up ["NEW_CELL"%string]. up (@nil string). up ["TIME"%string]. up (@nil string). up (@nil string). apply built_up.
  Qed.
  Lemma mobility_split b s before names ex afterwards : nth_error (w_stories w) b = Some s -> st_ops s = before ++ OpFieldLogger "mobility_logs" names ex :: afterwards ->
    b = a /\ before = firstn 4 (mobility_ops subs cells x fmt) /\ names = cols /\ ex = [].
  Proof.
    intros E Eo. destruct (Nat.eq_dec b a) as [->|N].
    - split; [reflexivity|]. destruct (mob_story _ _ _ _ _ _ M) as (s' & judge & E' & Hf & Ho). assert (s' = s) by congruence. subst s'. rewrite Ho in Eo. clear - Eo.
      unfold mobility_ops in Eo. cbn [app] in Eo.
      do 6 (destruct before as [|? before]; cbn [app] in Eo; [try discriminate; injection Eo; intros; subst; auto|injection Eo as <- Eo]). now destruct before.
    - exfalso. eapply (mobility_quiet b s); [exact N|exact E|rewrite Eo; apply in_or_app; right; now left|constructor].
  Qed.
  Lemma mobility_header : one_header w "mobility_logs" cols.
  Proof.
    left. split; [discriminate|]. intros b s o names ex E Ho P. destruct (Nat.eq_dec b a) as [->|N]; [|exfalso; eapply mobility_quiet; eauto].
    destruct (mob_story _ _ _ _ _ _ M) as (s' & judge & E' & Hf & Ho'). assert (s' = s) by congruence. subst s'. rewrite Ho' in Ho. clear - Ho P.
    cbn in Ho. decompose [or] Ho; subst; try contradiction; inversion P; subst; auto.
  Qed.
  Lemma mobility_steady : steady_relationship w cells.
  Proof.
    intros b s o o' E Ho P. destruct (Nat.eq_dec b a) as [->|N]; [|eapply mob_others; eauto].
    destruct (mob_story _ _ _ _ _ _ M) as (s' & judge & E' & Hf & Ho'). assert (s' = s) by congruence. subst s'. rewrite Ho' in Ho. clear - Ho P.
    cbn in Ho. decompose [or] Ho; subst; try contradiction; inversion P; subst; cbn; intuition discriminate.
  Qed.
  Lemma mobility_journal : journal_of w x moves.
  Proof.
    split; [apply M|]. intros b s E. destruct (Nat.eq_dec b a) as [->|N]; [|apply nothing_to_enter; eapply mob_others; eauto].
    destruct (mob_story _ _ _ _ _ _ M) as (s' & judge & E' & Hf & Ho). assert (s' = s) by congruence. subst s'.
    apply (one_to_enter _ _ _ _ _ (firstn 2 (mobility_ops subs cells x fmt)) (OpAttrUpdate x "A_ID" "NEW_CELL") [OpTimestamp "TIME" true fmt]
      (OpFieldLogger "mobility_logs" cols []) [OpBack a judge] moves ["A_ID"; "PREV_CELL"; "NEW_CELL"]%string [] ["A_ID"; "PREV_CELL"; "NEW_CELL"; "TIME"]%string).
    - rewrite Ho. reflexivity.
    - unfold mobility_ops. cbn [firstn app]. repeat (apply Forall_cons; [split; [cbn [changes]; first [discriminate|tauto|intros [_ C]; discriminate|intros [C|(j & C & _)]; discriminate|intros []]|intros b0 c ex _ K; inversion K]|]).
      apply Forall_nil.
    - rewrite Hf. unfold mobility_ops. cbn [firstn].
      apply (widens_by _ _ _ ["PREV_CELL"%string]); [reflexivity|repeat constructor; intros []|cbn; intuition (subst; discriminate)|now left|cbn [app]].
      apply (widens_by _ _ _ ["NEW_CELL"%string]); [reflexivity|repeat constructor; intros []|cbn; intuition (subst; discriminate)|now left|cbn [app]]. constructor.
    - constructor.
    - now left.
    - intros c [].
    - cbn. auto.
    - cbn. auto.
    - apply (widens_by _ _ _ ["TIME"%string]); [reflexivity|repeat constructor; intros []|cbn; intuition (subst; discriminate)|now right|cbn [app]]. constructor.
    - exists cols. split; [reflexivity|]. right. unfold cols. cbn. split; [auto|]. split; [auto 6|]. intros c; cbn. intuition.
  Qed.
  Lemma mobility_before : tells_before w x moves "PREV_CELL".
  Proof.
    split; [exact mobility_tidy|]. intros b s before names ex afterwards E Eo. destruct (mobility_split _ _ _ _ _ _ E Eo) as (-> & -> & -> & ->).
    split; [reflexivity|]. split; [right; cbn; auto 8|]. destruct (mob_cell _ _ _ _ _ _ M) as (_ & po & Hp & Hx).
    exists [], subs, "CELL"%string, [("CELL", "PREV_CELL")]%string, po, (skipn 1 (firstn 4 (mobility_ops subs cells x fmt))).
    split; [reflexivity|]. split; [now left|]. split; [intros o []|]. auto.
  Qed.
End Mobility.

(** Each line of the mobility log tells where the subscriber was when they moved, one of the cells possible
    for them, and a moment of the simulation. *)
Theorem C136_mobility duration folder del w fs w' fs' tr subs cells x a fmt :
  run duration folder del w fs = (Ok tt, (w', fs', tr)) -> startable fs folder del -> (0 < Clock.c_step (w_clock w))%Z ->
  mobility_circus w subs cells x a fmt -> Forall reachable (w_rels w) ->
  exists n, covers (Clock.c_step (w_clock w)) duration n /\
  Forall (fun r => exists past future L1 w1 t, steps_of (length (w_stories w)) n = past ++ HExec a :: future /\ emits w past L1 w1 /\
    acts_now w1 a (r "A_ID"%string) /\
    (single (r "A_ID"%string) -> holds w1 x (r "A_ID"%string) (r "PREV_CELL"%string)) /\
    (In (r "NEW_CELL"%string) (items w cells (r "A_ID"%string)) \/ r "NEW_CELL"%string = VNA /\ items w cells (r "A_ID"%string) = []) /\
    r "TIME"%string = fmt t /\ (c_date (w_clock w1) <= t < c_date (w_clock w1) + Clock.c_step (w_clock w))%Z)
  (recorded fs' folder "mobility_logs").
Proof.
  intros H St Hs M R. pose proof (mobility_tidy w subs cells x a fmt M) as Td. pose proof (mobility_header w subs cells x a fmt M) as Oh.
  destruct (C136_lines_true_when_logged _ _ _ _ _ _ _ _ _ _ H St Hs Td Oh R) as (n & ps & Hn & F & _). exists n. split; [exact Hn|].
  destruct (C130_files_are_true _ _ _ _ _ _ _ _ _ _ H St Hs Td Oh R) as (n' & ps' & Hn' & F' & _).
  assert (G : Forall (fun r => In (r "NEW_CELL"%string) (items w cells (r "A_ID"%string)) \/ r "NEW_CELL"%string = VNA /\ items w cells (r "A_ID"%string) = [])
    (recorded fs' folder "mobility_logs")).
  { clear F ps. induction F' as [|p r ps rs Hr _ IH]; constructor; [clear IH|exact IH].
    destruct Hr as (b & future & L1 & w1 & Eh & Hp & s & before & names & ex & afterwards & row & k & Es & Eo & Hc & _ & T & _).
    destruct (mobility_split w subs cells x a fmt M _ _ _ _ _ _ Es Eo) as (-> & -> & -> & ->).
    assert (Er : forall c, In c ["TIME"; "A_ID"; "PREV_CELL"; "NEW_CELL"]%string -> r c = row c) by (intros c Hin; exact (Hc c (or_intror Hin))).
    rewrite !Er by (cbn; auto 6). clear Hc Er. cbn [mobility_ops firstn] in T. rewrite !Forall_cons_iff in T. destruct T as (_ & T2 & _).
    unfold tells in T2. cbn [tells_given] in T2. destruct (T2 (mobility_steady w subs cells x a fmt M)) as [K|(_ & K)]; auto. }
  clear F' ps' n' Hn'. revert G. induction F as [|p r ps rs Hr _ IH]; constructor; inversion G as [|? ? G1 G2]; subst; [clear IH|exact (IH G2)].
  destruct Hr as (b & future & L1 & w1 & Eh & Hp & s1 & before & names & ex & afterwards & row & k & Es1 & Eo & Hc & _ & T & Acts).
  pose proof (emits_static _ _ _ _ Hp) as [Hl Ss].
  assert (exists s, nth_error (w_stories w) b = Some s) as [s Es].
  { destruct (nth_error (w_stories w) b) eqn:E; [eauto|]. apply nth_error_None in E. assert (b < length (w_stories w1)) by (apply nth_error_Some; congruence). lia. }
  destruct (Ss b s Es) as (s1' & Es1' & Tr). assert (s1' = s1) by congruence. subst s1'. pose proof Tr as (_ & _ & Tf & _ & _ & _ & _ & To & _). rewrite To in Eo.
  destruct (mobility_split w subs cells x a fmt M _ _ _ _ _ _ Es Eo) as (-> & -> & -> & ->).
  assert (Er : forall c, In c ["TIME"; "A_ID"; "PREV_CELL"; "NEW_CELL"]%string -> r c = row c) by (intros c Hin; exact (Hc c (or_intror Hin))).
  pose proof (T [] (OpLookup subs "A_ID" [("CELL", "PREV_CELL")]%string) _ eq_refl) as T1.
  pose proof (T (firstn 3 (mobility_ops subs cells x fmt)) (OpTimestamp "TIME" true fmt) [] eq_refl) as T4. clear T.
  unfold tells_now in T1, T4. cbn [tells_given] in T1, T4. destruct T4 as (t & E1 & E2).
  destruct (mob_story _ _ _ _ _ _ M) as (s' & judge & E' & Hf & _). assert (s' = s) by congruence. subst s'. rewrite Tf, Hf in Acts.
  exists p, future, L1, w1, t. split; [exact Eh|]. split; [exact Hp|]. split; [exists s1; split; [exact Es1|]; rewrite Er by (cbn; auto); exact Acts|].
  split; [|split; [exact G1|split; [rewrite Er by (cbn; auto); exact E1|]]].
  - intros Sg. rewrite !Er in * by (cbn; auto). destruct (mob_cell _ _ _ _ _ _ M) as (_ & po & Hpo & Hx).
    pose proof (emits_since w p w L1 w1 (since_start w R) Hp) as S1.
    destruct (sc_shape _ _ S1) as (_ & _ & _ & Hp1 & _). specialize (Hp1 subs). rewrite Hpo in Hp1. destruct (nth_error (w_pops w1) subs) as [po1|] eqn:Ep1; [|discriminate].
    cbn in Hp1. assert (Hx1 : dget "CELL"%string (p_attrs po1) = Some x) by congruence.
    pose proof (C137_journal_tells_value w x moves p L1 w1 (mobility_journal w subs cells x a fmt M) Hp) as J.
    assert (Sv1 : single_valued w1 x) by (exact (proj1 (journal_read w x moves p L1 w1 (mobility_journal w subs cells x a fmt M) Hp (proj1 (mob_cell _ _ _ _ _ _ M))))).
    destruct Sv1 as (t1 & Et1 & Nt1). pose proof (T1 _ _ po1 x t1 (or_introl eq_refl) eq_refl Hx1 Et1 ltac:(intros o [])) as Lk.
    exists t1. split; [exact Et1|]. destruct Sg as [_ Sl]. destruct (row "A_ID"%string) as [| | | |its]; cbn in Lk; try (now apply dget_In). exfalso. now apply (Sl its).
  - destruct (emits_date _ _ _ _ Hp) as [_ Ed]. now rewrite Ed in E2.
Qed.
Print Assumptions C136_mobility.

(** The lines about a subscriber lead from their first cell to their present one, without a gap. *)
Theorem C137_mobility duration folder del w fs w' fs' tr subs cells x a fmt :
  run duration folder del w fs = (Ok tt, (w', fs', tr)) -> startable fs folder del -> (0 < Clock.c_step (w_clock w))%Z ->
  mobility_circus w subs cells x a fmt -> Forall reachable (w_rels w) ->
  forall k v, single k -> holds w x k v -> exists v', holds w' x k v' /\
    let rs := filter (fun r : record => val_eqb (r "A_ID"%string) k) (recorded fs' folder "mobility_logs") in
    v :: map (fun r : record => r "NEW_CELL"%string) rs = map (fun r : record => r "PREV_CELL"%string) rs ++ [v'].
Proof.
  intros H St Hs M R. exact (C137_files_have_no_gaps _ _ _ _ _ _ _ _ x moves "PREV_CELL" _ H St Hs (mobility_journal w subs cells x a fmt M)
    (mobility_before w subs cells x a fmt M) (mobility_header w subs cells x a fmt M) R).
Qed.
Print Assumptions C137_mobility.

(** An instance with three subscribers. *)
Definition mobile_calls : list call :=
  [CRelationship 0 "POSSIBLE_CELLS" None;
   CRelAdd 0 [s_ "A"; s_ "A"; s_ "B"; s_ "B"; s_ "C"; s_ "C"] [s_ "c1"; s_ "c2"; s_ "c1"; s_ "c3"; s_ "c2"; s_ "c3"];
   CAttribute 0 "CELL" None None (Some "POSSIBLE_CELLS"%string);
   CStory keep_order "mobility" 0 "A_ID" (0, 1) None 1 true;
   CSetOperations 0 (mobility_ops 0 0 0 when)].
Definition mobile : world := calls people mobile_calls.
Lemma mobile_built : built stream mobile.
Proof.
  unfold mobile, people. apply built_calls; [apply built_calls; [apply built_new|]|]; repeat constructor; intros l; apply Permutation_refl.
Qed.
Lemma mobile_reachable : Forall reachable (w_rels mobile).
Proof. apply Forall_forall. intros rel Hin. apply In_nth_error in Hin as [r Hr]. exact (built_reachable _ _ _ _ mobile_built Hr). Qed.
Lemma mobile_shape : mobility_circus mobile 0 0 0 0 when.
Proof.
  assert (E1 : length (w_stories mobile) = 1) by (vm_compute; reflexivity).
  assert (E2 : exists s judge, nth_error (w_stories mobile) 0 = Some s /\ st_field s = "A_ID"%string /\ st_ops s = mobility_ops 0 0 0 when ++ [OpBack 0 judge])
    by (eexists _, _; vm_compute; auto).
  assert (E3 : exists t, nth_error (w_attrs mobile) 0 = Some t /\ map fst t = [s_ "A"; s_ "B"; s_ "C"]) by (eexists; vm_compute; auto).
  assert (E4 : exists po, nth_error (w_pops mobile) 0 = Some po /\ dget "CELL"%string (p_attrs po) = Some 0) by (eexists; vm_compute; auto).
  constructor.
  - exact E2.
  - intros b s N E. assert (b < 1) by (rewrite <- E1; apply nth_error_Some; congruence). lia.
  - split; [|exact E4]. destruct E3 as (t & Et & Ek). exists t. split; [exact Et|]. rewrite Ek. clear. repeat constructor; cbn; intuition discriminate.
Qed.
Definition mobility_shown : list string := ["A_ID"; "PREV_CELL"; "NEW_CELL"]%string.
Example C137_example : exists w' fs' tr,
  run (3 * hour) logs_folder false mobile disk = (Ok tt, (w', fs', tr)) /\ startable disk logs_folder false /\ (0 < Clock.c_step (w_clock mobile))%Z /\
  mobility_circus mobile 0 0 0 0 when /\ Forall reachable (w_rels mobile) /\ single (s_ "B") /\ (exists v, holds mobile 0 (s_ "B") v) /\
  length (recorded fs' logs_folder "mobility_logs") = 9 /\
  exists r, In r (recorded fs' logs_folder "mobility_logs") /\ r "PREV_CELL"%string <> r "NEW_CELL"%string.
Proof.
  assert (E : fst (run (3 * hour) logs_folder false mobile disk) = Ok tt) by (vm_compute; reflexivity).
  assert (E2 : let fs' := snd (fst (snd (run (3 * hour) logs_folder false mobile disk))) in
    length (recorded fs' logs_folder "mobility_logs") = 9 /\
    existsb (fun r : record => negb (val_eqb (r "PREV_CELL"%string) (r "NEW_CELL"%string))) (recorded fs' logs_folder "mobility_logs") = true) by (vm_compute; auto).
  destruct (run (3 * hour) logs_folder false mobile disk) as [res [[w' fs'] tr]]. cbn [fst snd] in E, E2. subst res.
  exists w', fs', tr. split; [reflexivity|]. split; [exact logging_startable|]. split; [vm_compute; reflexivity|].
  split; [exact mobile_shape|]. split; [exact mobile_reachable|]. split; [split; [discriminate|intros l; discriminate]|].
  assert (E3 : exists t v, nth_error (w_attrs mobile) 0 = Some t /\ In (s_ "B", v) t) by (eexists _, _; split; [vm_compute; reflexivity|vm_compute; right; left; reflexivity]).
  split; [destruct E3 as (t & v & E3 & E4); exists v, t; auto|]. destruct E2 as [E4 E5]. split; [exact E4|].
  apply existsb_exists in E5 as (r & Hr & Hn). exists r. split; [exact Hr|]. intros K. rewrite K in Hn.
  assert (K' : val_eqb (r "NEW_CELL"%string) (r "NEW_CELL"%string) = true) by now apply val_eqb_eq. rewrite K' in Hn. discriminate.
Qed.
