(** What the records of the logs tell is true (C130), when they were logged (C131) and how many there are
    (C132); what generators give (C133). *)
From Verif Require Import Base BaseFacts Rng Utils Relationship RelationshipFacts SpecRelationship Frame Gens Clock Attribute SpecAttribute AttributeFacts World Story Ops
  Fs Circus SpecStory SpecOps SpecCircus SpecWorld WorldProps SpecPopulation GensKept PopProps SpecLocal CircusProps SpecSupply SpecFs SpecLedger SpecRecords RecordsGens RecordsProps RecordsMore
  Samples StorySamples PropCircus PropSupply PropLedger.
From Coq Require Import Permutation Sorted.

(** ** C130.  In a circus whose stories give a new name to each column they add, every record found in a log
    was logged by a story being executed then, for a member acting then, and what it says is true: an item
    selected from a relationship that no story changes is an item of the member shown, a looked up value is
    the value of the attribute of that member, a generated value is one the generator can give, and so on.
    The records are in the order in which they were logged. *)
Theorem C130_records_are_true w id hs L w' : tidy w id -> Forall reachable (w_rels w) -> emits w hs L w' ->
  exists pasts, Forall2 (logged_after w id hs) pasts (records id L) /\ StronglySorted earlier pasts.
Proof. exact (records_true w id hs L w'). Qed.
Print Assumptions C130_records_are_true.

(** The same for circus.run and the log files it writes. *)
Theorem C130_files_are_true duration folder del w fs w' fs' tr id cols :
  run duration folder del w fs = (Ok tt, (w', fs', tr)) -> startable fs folder del -> (0 < Clock.c_step (w_clock w))%Z ->
  tidy w id -> one_header w id cols -> Forall reachable (w_rels w) ->
  exists n pasts, covers (Clock.c_step (w_clock w)) duration n /\
    Forall2 (logged_after w id (steps_of (length (w_stories w)) n)) pasts (recorded fs' folder id) /\ StronglySorted earlier pasts.
Proof.
  intros H St Hs Td Oh R. destruct (run_recorded _ _ _ _ _ _ _ _ H St Hs) as (n & L & Hn & He & Er).
  destruct (records_true w id _ L w' Td R He) as (ps & F & S). exists n, ps. split; [exact Hn|]. now rewrite (Er id cols Oh).
Qed.
Print Assumptions C130_files_are_true.

(** *** The hello world example: examples/datacamp-blogpost/06-the-social-network.py:78-96 *)
Definition hello_ops (quotes friends person : nat) (fmt : Z -> val) : list op :=
  [OpTimestamp "TIME" true fmt;
   OpSelectOne quotes "PERSON_ID" "MESSAGE" false false false None;
   OpSelectOne friends "PERSON_ID" "OTHER_PERSON" false false false None;
   OpLookup person "PERSON_ID" [("NAME", "EMITTER_NAME")]%string;
   OpLookup person "OTHER_PERSON" [("NAME", "RECEIVER_NAME")]%string;
   OpFieldLogger "hello_6" [] []].
Definition hello_cols : list string := ["PERSON_ID"; "TIME"; "MESSAGE"; "OTHER_PERSON"; "EMITTER_NAME"; "RECEIVER_NAME"]%string.
Record hello_circus (w : world) (quotes friends person : nat) (fmt : Z -> val) (s : story) (names : series) : Prop := {
  hello_story : w_stories w = [s];
  hello_field : st_field s = "PERSON_ID"%string;
  hello_done : exists judge, st_ops s = hello_ops quotes friends person fmt ++ [OpBack 0 judge];
  hello_names : exists po x, nth_error (w_pops w) person = Some po /\ dget "NAME"%string (p_attrs po) = Some x /\ nth_error (w_attrs w) x = Some names
}.

Ltac up new := apply (builds_by _ _ new); [left; reflexivity|repeat constructor; intros []|cbn; intuition (subst; discriminate)|
  intros ? K; cbn in K |- *; intuition auto|cbn [app]].
Lemma hello_told quotes friends person fmt : builds_up ["PERSON_ID"%string] (firstn 5 (hello_ops quotes friends person fmt)) hello_cols.
Proof.
  unfold hello_ops, hello_cols. cbn [firstn].
  up ["TIME"%string]. up ["MESSAGE"%string]. up ["OTHER_PERSON"%string]. up ["EMITTER_NAME"%string]. up ["RECEIVER_NAME"%string]. apply built_up.
Qed.
Lemma hello_built_up quotes friends person fmt judge : builds_up ["PERSON_ID"%string] (hello_ops quotes friends person fmt ++ [OpBack 0 judge]) hello_cols.
Proof.
  unfold hello_ops, hello_cols. cbn [app].
  up ["TIME"%string]. up ["MESSAGE"%string]. up ["OTHER_PERSON"%string]. up ["EMITTER_NAME"%string]. up ["RECEIVER_NAME"%string].
  up (@nil string). up (@nil string). apply built_up.
Qed.

(** Every line of the log file of the example tells who said what to whom, and when. *)
Theorem C130_hello_world duration folder del w fs w' fs' tr quotes friends person fmt s names :
  run duration folder del w fs = (Ok tt, (w', fs', tr)) -> startable fs folder del -> (0 < Clock.c_step (w_clock w))%Z ->
  hello_circus w quotes friends person fmt s names -> Forall reachable (w_rels w) ->
  exists n, covers (Clock.c_step (w_clock w)) duration n /\
  Forall (fun r =>
    In (r "PERSON_ID"%string) (st_ids s) /\
    (In (r "MESSAGE"%string) (items w quotes (r "PERSON_ID"%string)) \/
     r "MESSAGE"%string = VNA /\ items w quotes (r "PERSON_ID"%string) = []) /\
    (In (r "OTHER_PERSON"%string) (items w friends (r "PERSON_ID"%string)) \/
     r "OTHER_PERSON"%string = VNA /\ items w friends (r "PERSON_ID"%string) = []) /\
    looked_up names (r "PERSON_ID"%string) (r "EMITTER_NAME"%string) /\
    looked_up names (r "OTHER_PERSON"%string) (r "RECEIVER_NAME"%string) /\
    exists t, r "TIME"%string = fmt t /\ (c_date (w_clock w) <= t < c_date (w_clock w) + Z.of_nat n * Clock.c_step (w_clock w))%Z)
  (recorded fs' folder "hello_6").
Proof.
  intros H St Hs [Hst Hf [judge Ho] (po & x & Hpo & Hx & Hnames)] R.
  assert (Only : forall a s', nth_error (w_stories w) a = Some s' -> s' = s) by (rewrite Hst; intros [|[|a]] s' E; cbn in E; congruence).
  assert (Td : tidy w "hello_6").
  { intros a s' E. rewrite (Only _ _ E). left. exists hello_cols. rewrite Hf, Ho. apply hello_built_up. }
  assert (Oh : one_header w "hello_6" hello_cols).
  { right. intros a s' E. rewrite (Only _ _ E). right. exists (firstn 5 (hello_ops quotes friends person fmt)), [OpBack 0 judge]. split; [rewrite Ho; reflexivity|]. split.
    - rewrite Hf. apply hello_told.
    - intros o c ex Hin K. cbn in Hin. decompose [or] Hin; subst; try contradiction; inversion K. }
  destruct (C130_files_are_true _ _ _ _ _ _ _ _ _ _ H St Hs Td Oh R) as (n & ps & Hn & F & _). exists n. split; [exact Hn|].
  assert (Sr : forall r, steady_relationship w r).
  { intros r a s' o o' E Hin Hp. rewrite (Only _ _ E), Ho in Hin. cbn in Hin. decompose [or] Hin; subst; try contradiction; inversion Hp; subst; cbn; intuition discriminate. }
  assert (Sa : steady_attribute w x).
  { intros a s' o E Hin. rewrite (Only _ _ E), Ho in Hin. cbn in Hin. decompose [or] Hin; subst; try contradiction; clear Hin; cbn [changes]; first [discriminate|tauto|intros [_ C]; discriminate|intros [C|(j & C & _)]; discriminate]. }
  clear H St Td Oh. induction F as [|p r ps rs Hr _ IH]; constructor; [clear IH|exact IH].
  destruct Hr as (a & future & L1 & w1 & Eh & Hp & s' & before & lnames & ex & afterwards & row & k & Es & Eo & Hc & _ & T & Acts).
  rewrite (Only _ _ Es), Ho in Eo.
  assert (E : before = firstn 5 (hello_ops quotes friends person fmt) /\ lnames = [] /\ ex = []).
  { clear -Eo. cbn [hello_ops app firstn] in *.
    do 7 (destruct before as [|? before]; cbn [app] in Eo; [try discriminate; injection Eo; intros; subst; auto|injection Eo as <- Eo]). now destruct before. }
  destruct E as (-> & -> & ->). assert (Er : forall c, r c = row c) by (intros c; exact (Hc c (or_introl eq_refl))). rewrite !Er. clear Hc Er.
  cbn [hello_ops firstn] in T. rewrite !Forall_cons_iff in T. destruct T as (T1 & T2 & T3 & T4 & T5 & _). unfold tells in *; cbn [tells_given] in *.
  rewrite (Only _ _ Es), Hf in Acts. split; [|split; [|split; [|split; [|split]]]].
  - refine (acts_member _ _ _ _ _ _ _ Hp _ Acts). rewrite Es. f_equal. now apply (Only a).
  - destruct (T2 (Sr _)) as [K|(_ & K)]; auto.
  - destruct (T3 (Sr _)) as [K|(_ & K)]; auto.
  - eapply T4; eauto. now left.
  - eapply T5; eauto. now left.
  - destruct T1 as (t & E1 & E2). exists t. split; [exact E1|]. destruct (emits_date _ _ _ _ Hp) as [Ed _]. rewrite Ed in E2.
    pose proof (ticks_before_exec _ _ _ _ _ Eh) as K. nia.
Qed.
Print Assumptions C130_hello_world.

(** An instance with three persons; one of the quotes of each has weight 0. *)
Definition when (t : Z) : val := vz t.
Definition hello_calls : list call :=
  [CRelationship 0 "quotes" None;
   CRelAddWeighted 0 [s_ "A"; s_ "B"; s_ "C"] [s_ "a0"; s_ "b0"; s_ "c0"] (WScalar 0);
   CRelAddWeighted 0 [s_ "A"; s_ "B"; s_ "C"] [s_ "a1"; s_ "b1"; s_ "c1"] (WScalar 1);
   CRelationship 0 "friends" None;
   CRelAdd 1 [s_ "A"; s_ "A"; s_ "B"; s_ "C"] [s_ "B"; s_ "C"; s_ "A"; s_ "A"];
   CAttribute 0 "NAME" (Some (VValues [s_ "Ann"; s_ "Bob"; s_ "Cid"])) None None;
   CStory keep_order "hello_world" 0 "PERSON_ID" (0, 1) None 1 true;
   CSetOperations 0 (hello_ops 0 1 0 when)].
Definition hello : world := calls people hello_calls.
Lemma hello_world_built : built stream hello.
Proof.
  unfold hello, people. apply built_calls; [apply built_calls; [apply built_new|]|]; repeat constructor; intros l; apply Permutation_refl.
Qed.
Lemma hello_reachable : Forall reachable (w_rels hello).
Proof. apply Forall_forall. intros rel Hin. apply In_nth_error in Hin as [r Hr]. exact (built_reachable _ _ _ _ hello_world_built Hr). Qed.
Definition hello_story_of : story := nth 0 (w_stories hello) (mkStory "" 0 "" 0 false [] [] [] [] []).
Lemma hello_shape : hello_circus hello 0 1 0 when hello_story_of [(s_ "A", s_ "Ann"); (s_ "B", s_ "Bob"); (s_ "C", s_ "Cid")].
Proof.
  constructor.
  - unfold hello_story_of. assert (E : length (w_stories hello) = 1) by (vm_compute; reflexivity). destruct (w_stories hello) as [|s [|? ?]]; try discriminate. reflexivity.
  - vm_compute. reflexivity.
  - eexists. vm_compute. reflexivity.
  - eexists _, 0. split; [vm_compute; reflexivity|]. split; vm_compute; reflexivity.
Qed.
Lemma hello_tidy : tidy hello "hello_6".
Proof.
  intros a s E. destruct hello_shape as [Hst Hf [judge Ho] _]. rewrite Hst in E.
  assert (s = hello_story_of) by (destruct a as [|[|a]]; cbn in E; congruence). subst s. left. exists hello_cols. rewrite Hf, Ho. apply hello_built_up.
Qed.

Example C130_example : exists w' fs' tr,
  run (2 * hour) logs_folder false hello disk = (Ok tt, (w', fs', tr)) /\ startable disk logs_folder false /\ (0 < Clock.c_step (w_clock hello))%Z /\
  hello_circus hello 0 1 0 when hello_story_of [(s_ "A", s_ "Ann"); (s_ "B", s_ "Bob"); (s_ "C", s_ "Cid")] /\
  Forall reachable (w_rels hello) /\ tidy hello "hello_6" /\
  map (fun r : record => map r ["PERSON_ID"; "MESSAGE"; "OTHER_PERSON"; "EMITTER_NAME"; "RECEIVER_NAME"]%string) (recorded fs' logs_folder "hello_6") =
  [[s_ "A"; s_ "a1"; s_ "B"; s_ "Ann"; s_ "Bob"]; [s_ "B"; s_ "b1"; s_ "A"; s_ "Bob"; s_ "Ann"]; [s_ "C"; s_ "c1"; s_ "A"; s_ "Cid"; s_ "Ann"];
   [s_ "A"; s_ "a1"; s_ "C"; s_ "Ann"; s_ "Cid"]; [s_ "B"; s_ "b1"; s_ "A"; s_ "Bob"; s_ "Ann"]; [s_ "C"; s_ "c1"; s_ "A"; s_ "Cid"; s_ "Ann"]].
Proof.
  assert (E : fst (run (2 * hour) logs_folder false hello disk) = Ok tt) by (vm_compute; reflexivity).
  assert (E2 : let fs' := snd (fst (snd (run (2 * hour) logs_folder false hello disk))) in
    map (fun r : record => map r ["PERSON_ID"; "MESSAGE"; "OTHER_PERSON"; "EMITTER_NAME"; "RECEIVER_NAME"]%string) (recorded fs' logs_folder "hello_6") =
    [[s_ "A"; s_ "a1"; s_ "B"; s_ "Ann"; s_ "Bob"]; [s_ "B"; s_ "b1"; s_ "A"; s_ "Bob"; s_ "Ann"]; [s_ "C"; s_ "c1"; s_ "A"; s_ "Cid"; s_ "Ann"];
     [s_ "A"; s_ "a1"; s_ "C"; s_ "Ann"; s_ "Cid"]; [s_ "B"; s_ "b1"; s_ "A"; s_ "Bob"; s_ "Ann"]; [s_ "C"; s_ "c1"; s_ "A"; s_ "Cid"; s_ "Ann"]]) by (vm_compute; reflexivity).
  destruct (run (2 * hour) logs_folder false hello disk) as [res [[w' fs'] tr]]. cbn [fst snd] in E, E2. subst res.
  exists w', fs', tr. split; [reflexivity|]. split; [exact logging_startable|]. split; [vm_compute; reflexivity|].
  split; [exact hello_shape|]. split; [exact hello_reachable|]. split; [exact hello_tidy|]. exact E2.
Qed.

(** ** C131.  If every logger of a log shows a column filled by the timestamp operation, then the records of
    the log are in the order of the steps of their timestamps, and all the timestamps lie within the time
    simulated; if the timestamps are not random, the records are in the order of their timestamps. *)
Theorem C131_records_in_order w id c random fmt hs L w' : tidy w id -> Forall reachable (w_rels w) -> (0 < Clock.c_step (w_clock w))%Z ->
  timestamped w id c random fmt -> emits w hs L w' ->
  let start := c_date (w_clock w) in let step := Clock.c_step (w_clock w) in
  exists ts, map (fun r => r c) (records id L) = map fmt ts /\
    Forall (fun t => start <= t < start + (Z.of_nat (ticks hs) + 1) * step)%Z ts /\
    StronglySorted (fun t t' => (t - start) / step <= (t' - start) / step)%Z ts /\
    (random = false -> StronglySorted Z.le ts).
Proof.
  intros Td R Hs T H. cbv zeta. destruct (records_true w id hs L w' Td R H) as (ps & F & S).
  destruct (times w id hs c random fmt Hs T ps _ F S) as (ts & A & B & D & E). exists ts. split; [|split; [|auto]].
  - clear -A. induction A as [|t r ts rs Ht _ IH]; cbn; [reflexivity|]. now f_equal.
  - clear -B F Hs. revert ts B. induction F as [|p r ps rs Hr _ IH]; intros ts B; inversion B as [|t ? ts' ? Bt B']; subst; constructor; [|now apply IH].
    destruct Hr as (a & f & L1 & w1 & -> & _). rewrite ticks_app. unfold starts_at in Bt. destruct random; nia.
Qed.
Print Assumptions C131_records_in_order.

Theorem C131_files_in_order duration folder del w fs w' fs' tr id cols c random fmt :
  run duration folder del w fs = (Ok tt, (w', fs', tr)) -> startable fs folder del -> (0 < Clock.c_step (w_clock w))%Z ->
  tidy w id -> one_header w id cols -> Forall reachable (w_rels w) -> timestamped w id c random fmt ->
  let start := c_date (w_clock w) in let step := Clock.c_step (w_clock w) in
  exists n ts, covers step duration n /\ map (fun r => r c) (recorded fs' folder id) = map fmt ts /\
    Forall (fun t => start <= t < start + Z.of_nat n * step)%Z ts /\
    StronglySorted (fun t t' => (t - start) / step <= (t' - start) / step)%Z ts /\
    (random = false -> StronglySorted Z.le ts).
Proof.
  intros H St Hs Td Oh R T. cbv zeta. destruct (C130_files_are_true _ _ _ _ _ _ _ _ _ _ H St Hs Td Oh R) as (n & ps & Hn & F & S).
  destruct (times w id _ c random fmt Hs T ps _ F S) as (ts & A & B & D & E). exists n, ts. split; [exact Hn|]. split; [|split; [|auto]].
  - clear -A. induction A as [|t r ts rs Ht _ IH]; cbn; [reflexivity|]. now f_equal.
  - clear -B F Hs. revert ts B. induction F as [|p r ps rs Hr _ IH]; intros ts B; inversion B as [|t ? ts' ? Bt B']; subst; constructor; [|now apply IH].
    destruct Hr as (a & f & L1 & w1 & E & _). pose proof (ticks_before_exec _ _ _ _ _ E) as K. unfold starts_at in Bt. destruct random; nia.
Qed.
Print Assumptions C131_files_in_order.

Lemma hello_timestamped : timestamped hello "hello_6" "TIME" true when.
Proof.
  intros a s before names ex afterwards Es Eo. destruct hello_shape as [Hst _ [judge Ho] _]. rewrite Hst in Es.
  assert (s = hello_story_of) by (destruct a as [|[|a]]; cbn in Es; congruence). subst s. rewrite Ho in Eo. clear Ho Es Hst. cbn [hello_ops app] in Eo.
  do 7 (destruct before as [|? before]; cbn [app] in Eo; [try discriminate; injection Eo; intros; subst; cbn; auto|injection Eo as <- Eo]). destruct before; discriminate.
Qed.

Definition two_steps : list happening := steps_of 1 2.
Example C131_example : tidy hello "hello_6" /\ Forall reachable (w_rels hello) /\ (0 < Clock.c_step (w_clock hello))%Z /\ timestamped hello "hello_6" "TIME" true when /\
  emits hello two_steps (collect hello two_steps) (after hello two_steps) /\ length (records "hello_6" (collect hello two_steps)) = 6.
Proof.
  split; [exact hello_tidy|]. split; [exact hello_reachable|]. split; [vm_compute; reflexivity|]. split; [exact hello_timestamped|].
  split; [apply collect_emits; vm_compute; reflexivity|]. vm_compute. reflexivity.
Qed.

(** Random timestamps need not be in order within a step. *)
Theorem C131_random_order_refuted : exists w id c hs L w' ts,
  tidy w id /\ Forall reachable (w_rels w) /\ timestamped w id c true when /\ emits w hs L w' /\
  map (fun r => r c) (records id L) = map when ts /\ ~ StronglySorted Z.le ts.
Proof.
  exists hello, "hello_6"%string, "TIME"%string, (steps_of 1 1), (collect hello (steps_of 1 1)), (after hello (steps_of 1 1)),
    (map (fun v => match v with VNum q => QArith_base.Qnum (this q) | _ => 0%Z end) (map (fun r : record => r "TIME"%string) (records "hello_6" (collect hello (steps_of 1 1))))).
  split; [exact hello_tidy|]. split; [exact hello_reachable|]. split; [exact hello_timestamped|]. split; [apply collect_emits; vm_compute; reflexivity|].
  split; [vm_compute; reflexivity|]. vm_compute. intros K. inversion K as [|? ? K1 _]; subst. inversion K1 as [|? ? _ K2]; subst. inversion K2 as [|? ? K3 _]; subst. now apply K3.
Qed.
Print Assumptions C131_random_order_refuted.

(** ** C132.  If a single story logs under an id, once per execution and before any of its rows is dropped,
    then the log holds one record for each act of each member, in the order in which they act. *)
Theorem C132_one_record_per_act w id a member hs L w' : one_record_per_act w id a member -> distinct_members w -> Forall reachable (w_rels w) -> emits w hs L w' ->
  map (fun r => r member) (records id L) = acted a w hs.
Proof. exact (acts_recorded w id a member hs L w'). Qed.
Print Assumptions C132_one_record_per_act.

Theorem C132_one_line_per_act duration folder del w fs w' fs' tr id cols a member :
  run duration folder del w fs = (Ok tt, (w', fs', tr)) -> startable fs folder del -> (0 < Clock.c_step (w_clock w))%Z ->
  one_header w id cols -> one_record_per_act w id a member -> distinct_members w -> Forall reachable (w_rels w) ->
  exists n, covers (Clock.c_step (w_clock w)) duration n /\
    map (fun r => r member) (recorded fs' folder id) = acted a w (steps_of (length (w_stories w)) n).
Proof.
  intros H St Hs Oh One D R. destruct (run_recorded _ _ _ _ _ _ _ _ H St Hs) as (n & L & Hn & He & Er). exists n. split; [exact Hn|].
  rewrite (Er id cols Oh). exact (acts_recorded _ _ _ _ _ _ _ One D R He).
Qed.
Print Assumptions C132_one_line_per_act.

Lemma hello_one_record : one_record_per_act hello "hello_6" 0 "PERSON_ID".
Proof.
  destruct hello_shape as [Hst Hf [judge Ho] _]. split.
  - exists hello_story_of, (firstn 5 (hello_ops 0 1 0 when)), [], [OpBack 0 judge], hello_cols.
    split; [now rewrite Hst|]. split; [now rewrite Hf|]. split; [rewrite Ho; reflexivity|]. split; [|split; [|split; [now left|]]].
    + rewrite Hf. apply hello_told.
    + repeat constructor.
    + intros o c ex Hin K. cbn in Hin. decompose [or] Hin; subst; try contradiction; inversion K.
  - intros b s o c ex Nb Es. rewrite Hst in Es. destruct b as [|[|b]]; cbn in Es; congruence.
Qed.
Example C132_example : one_record_per_act hello "hello_6" 0 "PERSON_ID" /\ distinct_members hello /\ Forall reachable (w_rels hello) /\ emits hello two_steps (collect hello two_steps) (after hello two_steps) /\
  acted 0 hello two_steps = [s_ "A"; s_ "B"; s_ "C"; s_ "A"; s_ "B"; s_ "C"].
Proof.
  split; [exact hello_one_record|]. split; [exact (built_distinct _ _ hello_world_built)|]. split; [exact hello_reachable|]. split; [apply collect_emits; vm_compute; reflexivity|]. vm_compute. reflexivity.
Qed.

(** ** C133.  Whatever happened before, and however often it is asked, a generator gives only values that it
    can give by its definition: a constant, one of the values to choose from whose probability is not 0, a
    number starting with one of the prefixes, the function of a map applied to what its parent can give... *)
Theorem C133_generators_give_their_values w w' i n vs h : later w w' -> i < length (w_gens w) -> gen_generate (w_gens w') i n = Ok (vs, h) ->
  Forall (can_give (w_gens w) i) vs.
Proof. intros La Hi. apply gen_can; [exact (later_gens w w' La)|exact Hi]. Qed.
Print Assumptions C133_generators_give_their_values.

(** A choice with a value of probability 0, a map over it and a bulk; whatever is asked before. *)
Definition giving : world := calls circus0
  [CNewGen (GNumpy (NpChoice [s_ "x"; s_ "y"; s_ "z"] (Some [Some (1 # 2)%Q; Some 0%Q; Some (1 # 2)%Q])) (random_state stream 7) None);
   CNewGen (GMap 0 (MapElem (fun v => Ok (VList [v; v])))); CNewGen (GConst (vz 2)); CNewGen (GBulk 2 0)].
Example C133_example : let w := giving in let w' := calls w [CGenerate 0 3; CGenerate 1 2] in
  later w w' /\ 3 < length (w_gens w) /\ is_ok (gen_generate (w_gens w') 3 4) = true /\ ~ can_give (w_gens w) 0 (s_ "y").
Proof.
  cbv zeta. split; [cbn [calls fold_left]; do 2 apply later_call; apply later_now|]. split; [vm_compute; lia|]. split; [vm_compute; reflexivity|].
  assert (E0 : exists s b, nth_error (w_gens giving) 0 = Some (GNumpy (NpChoice [s_ "x"; s_ "y"; s_ "z"] (Some [Some (1 # 2)%Q; Some 0%Q; Some (1 # 2)%Q])) s b))
    by (eexists _, _; vm_compute; reflexivity).
  destruct E0 as (s & b & E0). intros K.
  inversion K as [? ? E|? ? ? E|? ? ? ? E|? ? ? ? ? E|? ? ? ? ? j ? q E Ea Eq Hq|? ? ? ? ? E|? ? ? ? ? E|? ? ? ? ? E|? ? ? ? ? E|? ? ? ? E|? ? ? ? ? ? ? ? ? E|? ? ? ? ? E|? ? ? ? ? ? E|? ? ? ? ? E]; rewrite E0 in E; try discriminate.
  injection E as <- <- <- <-. destruct j as [|[|[|j]]]; cbn in Ea, Eq; try discriminate; try (destruct j; discriminate).
  injection Eq as <-. cbv in Hq. discriminate.
Qed.
