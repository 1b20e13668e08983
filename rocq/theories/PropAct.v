(** Operations act on exactly the rows they name (C107, C108). *)
From Verif Require Import Base BaseFacts Rng Utils Relationship SpecRelationship Frame Gens Clock Attribute SpecAttribute World Story Ops Fs Circus
  SpecStory SpecWorld SpecOps SpecPopulation SpecAct Samples StorySamples WorldProps PropStory PropOps PropPopulation ActFacts.

(** ** C107.  Operations on stories. *)

(** force_act_next: the members named by the retained rows act at the next execution of the
    story; nobody else's counter changes, nor any state. *)
Theorem C107_force a f cond d w d' l w' : run_op (OpForce a f cond) d w = (Ok (d', l), w') -> distinct_members w ->
  d' = d /\ l = [] /\ only_story a w w' /\
  (forall i, targets f cond d i -> counter w' a i (Some 0%Z)) /\
  (forall i r, ~ targets f cond d i -> (counter w' a i r <-> counter w a i r)) /\
  (forall i, is_forced w' a i <-> is_forced w a i \/ targets f cond d i) /\
  (forall i st, in_state w' a i st <-> in_state w a i st).
Proof. exact (act_force a f cond d w d' l w'). Qed.
Print Assumptions C107_force.

(** One unknown id makes it raise: then nobody is made to act, although every named id is
    registered as forced. *)
Theorem C107_force_unknown a f cond d w s j : nth_error (w_stories w) a = Some s -> distinct_members w ->
  rectangular d -> In f (df_cols d) ->
  (forall c, cond = Some c -> In c (df_cols d) /\ forall row, In row (df_rows d) -> exists b, cell (df_cols d) (snd row) c = VBool b) ->
  targets f cond d j -> ~ In j (map fst (st_timer s)) ->
  exists w', run_op (OpForce a f cond) d w = (Err KeyError, w') /\ only_story a w w' /\
    (forall i r, counter w' a i r <-> counter w a i r) /\
    (forall i, is_forced w' a i <-> is_forced w a i \/ targets f cond d i).
Proof.
  intros Hs D R Hf Hc. destruct (force_ids_runs d f cond R Hf Hc) as (ids & E). exact (act_force_unknown a f cond d w s ids j Hs D E).
Qed.
Print Assumptions C107_force_unknown.

(** transit_to_state: the last retained row naming a member (id and state not NaN) decides its
    state; the others stay where they are; no counter changes. *)
Theorem C107_transit a f state cond d w d' l w' : run_op (OpTransit a f state cond) d w = (Ok (d', l), w') -> distinct_members w ->
  d' = d /\ l = [] /\ only_story a w w' /\
  (forall i st, in_state w' a i st <->
     last_move f state cond d i st \/ never_moved f state cond d i /\ in_state w a i st) /\
  (forall i r, counter w' a i r <-> counter w a i r) /\
  (forall i, is_forced w' a i <-> is_forced w a i).
Proof. exact (act_transit a f state cond d w d' l w'). Qed.
Print Assumptions C107_transit.

(** reset_timers: exactly the named members that are not forced get a new counter. *)
Theorem C107_reset a f d w d' l w' s g : run_op (OpReset a f) d w = (Ok (d', l), w') -> distinct_members w -> sound_states w a ->
  nth_error (w_stories w) a = Some s -> nth_error (w_tgens w) (st_tgen s) = Some g ->
  (f = None -> NoDup (df_index d)) ->
  d' = d /\ l = [] /\
  exists activities counters,
    (forall i, In i (map fst activities) <-> names_row f d i /\ ~ is_forced w a i) /\
    (activities <> [] -> exists g', tgen_generate g activities = Ok (counters, g')) /\
    (forall i q, In (i, q) activities -> exists st, in_state w a i st /\ activity_in s i st q) /\
    (forall i q, In (i, q) activities -> (q == 0)%Q -> counter w' a i (Some (-1)%Z)) /\
    (forall i q, In (i, q) activities -> ~ (q == 0)%Q -> exists t, In (i, t) counters /\ counter w' a i t) /\
    (forall i r, ~ (names_row f d i /\ ~ is_forced w a i) -> (counter w' a i r <-> counter w a i r)) /\
    (forall i st, in_state w' a i st <-> in_state w a i st) /\
    (forall b, b <> a -> nth_error (w_stories w') b = nth_error (w_stories w) b).
Proof. exact (act_reset a f d w d' l w' s g). Qed.
Print Assumptions C107_reset.

(** Story data with a column of friends, some of them missing, a mood, and a condition. *)
Definition friends : df := mkDf ["FRIEND"; "MOOD"; "OK"]%string
  [(s_ "A", [s_ "B"; s_ "busy"; VBool true]); (s_ "B", [VNA; s_ "busy"; VBool true]);
   (s_ "C", [s_ "C"; s_ "busy"; VBool false]); (s_ "D", [s_ "B"; s_ "default"; VBool true]); (s_ "E", [s_ "A"; VNA; VBool true])].
Definition quiet : world := town 0 false logging.
Lemma quiet_distinct : distinct_members quiet.
Proof. eapply C12_members_distinct, town_built. Qed.
Example C107_example : distinct_members quiet /\
  (exists d l w', run_op (OpForce 0 "FRIEND" (Some "OK"%string)) friends quiet = (Ok (d, l), w') /\
     targets "FRIEND" (Some "OK"%string) friends (s_ "B") /\ ~ targets "FRIEND" (Some "OK"%string) friends (s_ "C") /\
     shows w' 0 (s_ "A") ("default"%string, Some 0%Z) = true /\ shows w' 0 (s_ "B") ("default"%string, Some 0%Z) = true /\
     shows w' 0 (s_ "C") ("default"%string, Some (-1)%Z) = true) /\
  (exists d l w', run_op (OpTransit 0 "FRIEND" (inl "MOOD"%string) None) friends quiet = (Ok (d, l), w') /\
     last_move "FRIEND" (inl "MOOD"%string) None friends (s_ "B") "default" /\
     last_move "FRIEND" (inl "MOOD"%string) None friends (s_ "C") "busy" /\
     never_moved "FRIEND" (inl "MOOD"%string) None friends (s_ "A") /\
     shows w' 0 (s_ "B") ("default"%string, Some (-1)%Z) = true /\ shows w' 0 (s_ "C") ("busy"%string, Some (-1)%Z) = true).
Proof.
  split; [exact quiet_distinct|]. split.
  - run_example. split; [|split; [|repeat split; vm_compute; reflexivity]].
    + split; [discriminate|]. eexists. split; [left; reflexivity|]. split; reflexivity.
    + intros (_ & row & Hr & Hc & He). cbn in Hr. repeat (destruct Hr as [<-|Hr]; [cbn in Hc, He; discriminate|]). destruct Hr.
  - run_example. split; [|split; [|split; [|split; vm_compute; reflexivity]]].
    + eexists [_; _; _], _, [_]. split; [reflexivity|]. split.
      * split; [exact I|]. split; [discriminate|]. split; reflexivity.
      * intros row' st' [<-|[]] (_ & _ & K & _). discriminate.
    + eexists [_; _], _, [_; _]. split; [reflexivity|]. split.
      * split; [exact I|]. split; [discriminate|]. split; reflexivity.
      * intros row' st' Hr (_ & _ & K & _). destruct Hr as [<-|[<-|[]]]; discriminate.
    + intros row st Hr (_ & _ & K & K2). cbn in Hr. repeat (destruct Hr as [<-|Hr]; [cbn in K, K2; discriminate|]). destruct Hr.
Qed.
(** The ids of a column in which the last row is unknown. *)
Definition strangers : df := mkDf ["FRIEND"]%string [(s_ "A", [s_ "B"]); (s_ "B", [s_ "Z"])].
Example C107_unknown_example : exists s, nth_error (w_stories quiet) 0 = Some s /\ rectangular strangers /\
  targets "FRIEND" None strangers (s_ "Z") /\ ~ In (s_ "Z") (map fst (st_timer s)).
Proof.
  assert (E : option_map (fun s => map fst (st_timer s)) (nth_error (w_stories quiet) 0) = Some [s_ "A"; s_ "B"; s_ "C"]) by (vm_compute; reflexivity).
  destruct (nth_error (w_stories quiet) 0) as [s|]; [|discriminate]. injection E as E. exists s. split; [reflexivity|].
  split; [split; [repeat constructor; cbn; tauto|]; intros row [<-|[<-|[]]]; reflexivity|]. split.
  - split; [discriminate|]. eexists. split; [right; left; reflexivity|]. split; [exact I|reflexivity].
  - rewrite E. cbn. intuition discriminate.
Qed.
Example C107_reset_example :
  (exists d l w', run_op (OpReset 0 (Some "FRIEND"%string)) friends quiet = (Ok (d, l), w') /\
     shows w' 0 (s_ "A") ("default"%string, Some 2%Z) = true /\ shows w' 0 (s_ "B") ("default"%string, Some 2%Z) = true) /\
  sound_states quiet 0 /\ names_row (Some "FRIEND"%string) friends (s_ "A") /\ ~ is_forced quiet 0 (s_ "A") /\
  option_map st_tgen (nth_error (w_stories quiet) 0) = Some 0 /\ nth_error (w_tgens quiet) 0 = Some (TConst 2).
Proof.
  split; [run_example; split; vm_compute; reflexivity|]. split; [apply states_by_check; vm_compute; reflexivity|].
  split; [eexists; split; [do 4 right; left; reflexivity|]; split; [reflexivity|discriminate]|].
  split; [|split; vm_compute; reflexivity]. intros (s & Hs & Hi).
  assert (E : option_map st_forced (nth_error (w_stories quiet) 0) = Some []) by (vm_compute; reflexivity).
  rewrite Hs in E. injection E as E. rewrite E in Hi. destruct Hi.
Qed.

(** ** C108.  Operations on attributes and populations. *)

(** attribute.ops.update: the members in the id column get the value of their row, the others
    keep theirs; it needs distinct ids. *)
Theorem C108_attribute_update a idf copy d w d' l w' : run_op (OpAttrUpdate a idf copy) d w = (Ok (d', l), w') ->
  single_valued w a ->
  d' = d /\ l = [] /\ only_attribute a w w' /\ single_valued w' a /\ NoDup (map fst (listed d idf copy)) /\
  forall k v, holds w' a k v <->
    In (k, v) (listed d idf copy) \/ ~ In k (map fst (listed d idf copy)) /\ holds w a k v.
Proof. exact (act_attr_update a idf copy d w d' l w'). Qed.
Print Assumptions C108_attribute_update.
Theorem C108_attribute_update_runs a idf copy d w : single_valued w a -> rectangular d -> In idf (df_cols d) -> In copy (df_cols d) ->
  NoDup (column_of d idf) -> exists w', run_op (OpAttrUpdate a idf copy) d w = (Ok (d, []), w').
Proof. exact (act_attr_update_runs a idf copy d w). Qed.
Print Assumptions C108_attribute_update_runs.

(** population.ops.update: the ids of the column become members, with the copied values; the
    last row wins. *)
Theorem C108_population_update g w p po idf (copy : dict string string) d : built g w -> nth_error (w_pops w) p = Some po ->
  (forall n, In n (dkeys copy) <-> In n (dkeys (p_attrs po))) -> NoDup (dkeys copy) ->
  (forall n a, attribute_at w p n a -> single_valued w a) ->
  rectangular d -> In idf (df_cols d) -> (forall n field, dget n copy = Some field -> In field (df_cols d)) ->
  exists w', run_op (OpPopUpdate p idf copy) d w = (Ok (d, []), w') /\
    (forall i, member w' p i <-> member w p i \/ In i (column_of d idf)) /\
    (forall n a field, attribute_at w p n a -> dget n copy = Some field ->
       attribute_at w' p n a /\ single_valued w' a /\
       forall k v, holds w' a k v <->
         last_value k (listed d idf field) = Some v \/ ~ In k (column_of d idf) /\ holds w a k v).
Proof. exact (act_pop_update g w p po idf copy d). Qed.
Print Assumptions C108_population_update.

(** Creating an attribute, whatever its initialisation and even when it fails, leaves the
    relations of every relationship as they are. *)
Theorem C108_creation_leaves_relations p name iv ig ir w r rel : nth_error (w_rels w) r = Some rel ->
  exists rel', nth_error (w_rels (snd (create_attribute p name iv ig ir w))) r = Some rel' /\ stored rel' = stored rel.
Proof. exact (create_attribute_stored p name iv ig ir w r rel). Qed.
Print Assumptions C108_creation_leaves_relations.

Definition arrivals : df := mkDf ["WHO"; "YEARS"]%string [(s_ "x", [s_ "D"; vz 60]); (s_ "y", [s_ "A"; vz 32]); (s_ "z", [s_ "D"; vz 61])].
Lemma arrivals_rect : rectangular arrivals.
Proof.
  split; [repeat constructor; cbn; intuition discriminate|]. cbn. intros row H. repeat (destruct H as [<-|H]; [reflexivity|]). contradiction.
Qed.
Example C108_example : single_valued market 0 /\ rectangular visitors /\ NoDup (column_of visitors "PERSON") /\
  (exists d l w', run_op (OpAttrUpdate 0 "PERSON" "N") visitors market = (Ok (d, l), w') /\
     nth_error (w_attrs w') 0 = Some [(s_ "A", vz 2); (s_ "B", vz 3); (s_ "C", vz 1)]) /\
  (exists d l w', run_op (OpPopUpdate 0 "WHO" [("AGE"%string, "YEARS"%string)]) arrivals market = (Ok (d, l), w') /\
     nth_error (w_attrs w') 0 = Some [(s_ "A", vz 32); (s_ "B", vz 42); (s_ "C", vz 53); (s_ "D", vz 61)]) /\
  (forall n, In n (dkeys [("AGE"%string, "YEARS"%string)]) <-> In n (dkeys (p_attrs market_pop))).
Proof.
  split; [exact market_single|]. split; [exact visitors_rect|]. split.
  { vm_compute. repeat constructor; cbn; intuition discriminate. }
  split; [run_example; vm_compute; reflexivity|]. split; [run_example; vm_compute; reflexivity|].
  change (p_attrs market_pop) with [("AGE"%string, 0)]. cbn. tauto.
Qed.
