(** Operations can be grouped into chains freely (C135). *)
From Verif Require Import Base BaseFacts Rng Utils Relationship RelationshipFacts SpecRelationship Frame Gens Clock Attribute SpecAttribute AttributeFacts World Story Ops
  Fs Circus SpecStory SpecOps SpecCircus SpecWorld WorldProps SpecPopulation GensKept PopProps SpecLocal CircusProps SpecSupply SpecFs SpecLedger SpecRecords RecordsGens RecordsProps
  SpecSafe SafeRun Samples StorySamples PropCircus PropRecords PropSafe SpecChains ChainsProps.

(** ** C135.  Two circuses that differ only in how the operations of their stories are grouped into chains
    behave alike: executing a story gives the same logs or the same exception, also when it raises half-way,
    and leaves everything else in the circus the same. *)
Theorem C135_same_executions w w' a : regrouped_circus w w' ->
  fst (execute a w') = fst (execute a w) /\ regrouped_circus (snd (execute a w)) (snd (execute a w')).
Proof. exact (regrouped_execute a w w'). Qed.
Print Assumptions C135_same_executions.

(** So does whatever else can happen to a story, *)
Theorem C135_same_happenings w w' h : regrouped_circus w w' ->
  fst (happen h w') = fst (happen h w) /\ regrouped_circus (snd (happen h w)) (snd (happen h w')).
Proof. exact (regrouped_happen h w w'). Qed.
Print Assumptions C135_same_happenings.

(** however often and in whatever order, *)
Theorem C135_same_logs w w' hs L w1 : regrouped_circus w w' -> emits w hs L w1 -> exists w1', emits w' hs L w1' /\ regrouped_circus w1 w1'.
Proof. intros R H. exact (regrouped_emits w hs L w1 H w' R). Qed.
Print Assumptions C135_same_logs.

(** and a whole run writes the same files, in the same order of writes, or fails in the same way. *)
Theorem C135_same_run duration folder del w w' fs result wend fs' events result' wend' fs'' events' : regrouped_circus w w' ->
  run duration folder del w fs = (result, (wend, fs', events)) -> run duration folder del w' fs = (result', (wend', fs'', events')) ->
  result' = result /\ fs'' = fs' /\ events' = events /\ regrouped_circus wend wend'.
Proof. intros R E E'. pose proof (regrouped_run duration folder del w w' fs R) as H. rewrite E, E' in H. exact H. Qed.
Print Assumptions C135_same_run.

(** In particular what is proved of stories without chains holds for stories with chains: the circus without
    any chain is a regrouping of it. *)
Theorem C135_without_chains w : exists w', regrouped_circus w w' /\
  forall a s o, nth_error (w_stories w') a = Some s -> In o (st_ops s) -> forall ops, o <> OpChain ops.
Proof.
  exists (fw flats w). split; [apply regrouped_flatten|]. intros a s o Hs Ho ops ->. cbn [fw set_stories w_stories] in Hs. rewrite nth_error_map in Hs.
  destruct (nth_error (w_stories w) a) as [s0|]; [|discriminate]. cbn in Hs. injection Hs as <-. cbn in Ho. exact (flats_plain _ _ Ho).
Qed.
Print Assumptions C135_without_chains.

Theorem C135_never_raises w w' duration folder del fs : regrouped_circus w w' -> well_formed w ->
  startable fs folder del -> (0 < Clock.c_step (w_clock w))%Z -> exists wend fs' tr, run duration folder del w' fs = (Ok tt, (wend, fs', tr)).
Proof.
  intros R Wf St Hs. destruct (C134_run_completes duration folder del w fs Wf St Hs) as (we & f & t & E).
  destruct (run duration folder del w' fs) as [r [[we' f'] t']] eqn:E'. destruct (C135_same_run _ _ _ _ _ _ _ _ _ _ _ _ _ _ R E E') as (-> & _). eauto.
Qed.
Print Assumptions C135_never_raises.

Theorem C135_histories_never_raise w w' hs : regrouped_circus w w' -> well_formed w -> Forall (sensible w) hs -> exists wend, history w' hs wend.
Proof. intros R Wf Hs. destruct (C134_never_raises w hs Wf Hs) as (w1 & H). destruct (regrouped_history w hs w1 H w' R) as (w1' & H' & _). eauto. Qed.
Print Assumptions C135_histories_never_raise.

(** The hello world example with its operations in nested chains. *)
Definition nested (s : story) : story :=
  with_ops s (match st_ops s with a :: b :: c :: d :: e :: l => [OpChain [a; OpChain []; OpChain [b; c]]; d; OpChain [OpChain [e]; OpChain l]] | l => l end).
Definition hello_nested : world := set_stories (map nested (w_stories hello)) hello.
Example C135_example : regrouped_circus hello hello_nested /\ w_stories hello_nested <> w_stories hello /\ well_formed hello /\
  (exists l w1, execute 0 hello_nested = (Ok l, w1) /\ map fst l = ["hello_6"%string] /\ records "hello_6" l <> []).
Proof.
  split; [|split; [|split; [exact hello_well_formed|]]].
  - exists (map nested (w_stories hello)). split; [reflexivity|]. generalize (w_stories hello). intros l. induction l as [|s l IH]; cbn [map]; constructor; [|exact IH].
    eexists. split; [reflexivity|]. apply flats_regrouped. unfold flats. destruct (st_ops s) as [|a [|b [|c [|d [|e l']]]]]; try reflexivity.
    cbn [flat_map flat]. rewrite ?app_nil_r, ?app_nil_l, <- ?app_assoc. reflexivity.
  - intros E. apply (f_equal (map (fun s => length (st_ops s)))) in E. assert (E1 : map (fun s => length (st_ops s)) (w_stories hello_nested) = [3]) by (vm_compute; reflexivity).
    assert (E2 : map (fun s => length (st_ops s)) (w_stories hello) = [7]) by (vm_compute; reflexivity). clear - E E1 E2. rewrite E1, E2 in E. discriminate.
  - eexists _, _. split; [vm_compute; reflexivity|]. split; [reflexivity|]. vm_compute. discriminate.
Qed.
