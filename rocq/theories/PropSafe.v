(** Circuses whose runs never raise (C134). *)
From Verif Require Import Base BaseFacts Rng Utils Relationship RelationshipFacts SpecRelationship Frame Gens Clock Attribute SpecAttribute AttributeFacts World Story Ops
  Fs Circus SpecStory SpecOps SpecCircus SpecWorld WorldProps SpecPopulation GensKept PopProps SpecLocal CircusProps SpecSupply SpecFs SpecLedger SpecRecords RecordsGens RecordsProps
  SpecSafe SafeRun Samples StorySamples PropCircus PropRecords.
From Coq Require Import Permutation.

(** ** C134.  In a circus whose stories are well formed, executing the stories, moving the clock, and forcing,
    resetting, ticking and moving known members to declared states never raises, in whatever order and
    however long. *)
Theorem C134_never_raises w hs : well_formed w -> Forall (sensible w) hs -> exists w', history w hs w'.
Proof. exact (safe_history w hs). Qed.
Print Assumptions C134_never_raises.

(** The same for circus.run. *)
Theorem C134_run_completes duration folder del w fs : well_formed w -> startable fs folder del -> (0 < Clock.c_step (w_clock w))%Z ->
  exists w' fs' tr, run duration folder del w fs = (Ok tt, (w', fs', tr)).
Proof.
  intros Wf St Hs. destruct (n_iterations_covers (w_clock w) duration Hs) as (z & _ & Hn).
  destruct (C134_never_raises w (steps_of (length (w_stories w)) (Z.to_nat z)) Wf (steps_sensible w _)) as (w' & H).
  destruct (C19_run_completes duration folder del w fs _ w' St Hs Hn H) as (fs' & tr & E). eauto.
Qed.
Print Assumptions C134_run_completes.

(** In a circus made with the API the stories are scheduled as required, provided that nobody was moved to a
    state that was not declared. *)
Theorem C134_made_with_the_api g w a s : built g w -> nth_error (w_stories w) a = Some s ->
  (forall i st r, In (i, (st, r)) (st_timer s) -> In st (st_states s)) -> (exists t, nth_error (w_tgens w) (st_tgen s) = Some t) ->
  scheduled w s /\ Forall reachable (w_rels w).
Proof.
  intros B Hs Hst Ht. split; [|apply Forall_forall; intros rel Hin; apply In_nth_error in Hin as [r Hr]; exact (built_reachable _ _ _ _ B Hr)].
  split; [exact (built_distinct _ _ B _ _ Hs)|]. split; [exact (built_default _ _ _ _ B Hs)|]. split; [exact Hst|]. split; [|exact Ht].
  intros i st p. exact (built_params _ _ _ _ i st p B Hs).
Qed.
Print Assumptions C134_made_with_the_api.

(** *** The hello world example never raises if every person has a friend and everybody has a name. *)
Theorem C134_hello_world w quotes friends person fmt s names : hello_circus w quotes friends person fmt s names ->
  Forall reachable (w_rels w) -> scheduled w s -> (forall judge, In (OpBack 0 judge) (st_ops s) -> exists st b, nth_error (w_gens w) judge = Some (GNumpy NpUniform st b)) ->
  (second <= Clock.c_step (w_clock w))%Z -> selectable w quotes -> selectable w friends ->
  (forall i, In i (st_ids s) -> items w friends i <> [] /\ In i (map fst names) /\ incl (items w friends i) (map fst names)) ->
  NoDup (map fst names) -> (forall l, ~ In (VList l) (map fst names)) -> well_formed w.
Proof.
  intros [Hst Hf [judge Ho] (po & x & Hpo & Hx & Hnames)] R Sc Hj Hsec Sq Sf Hm Nn Nl.
  assert (Only : forall a s', nth_error (w_stories w) a = Some s' -> a = 0 /\ s' = s) by (rewrite Hst; intros [|[|a]] s' E; cbn in E; split; congruence).
  assert (Sr : forall r, steady_relationship w r).
  { intros r a s' o o' E Hin Hp. destruct (Only _ _ E) as [_ ->]. rewrite Ho in Hin. cbn in Hin. decompose [or] Hin; subst; try contradiction; inversion Hp; subst; cbn; intuition discriminate. }
  set (any := fun (_ : nat) (_ _ : val) => True). exists any. split; [exact R|]. split; [intros ? ? ? ? _ _; exact I|]. intros a s' E. destruct (Only _ _ E) as [-> ->]. split; [exact Sc|]. rewrite Hf, Ho.
  assert (Hin : forall before row, possible_row any w s before row -> In (row "PERSON_ID"%string) (st_ids s)) by (intros before row [K _]; now rewrite Hf in K).
  unfold hello_ops. cbn [app].
  assert (Hjudge : In (OpBack 0 judge) (st_ops s)) by (rewrite Ho; apply in_or_app; right; now left).
  apply (safe_then any w s _ _ _ ["TIME"%string]); [left; reflexivity|repeat constructor; intros []|cbn; intuition (subst; discriminate)|intros ? K; cbn in K |- *; intuition auto|intros _; exact Hsec|cbn [app]].
  apply (safe_then any w s _ _ _ ["MESSAGE"%string]); [left; reflexivity|repeat constructor; intros []|cbn; intuition (subst; discriminate)|intros ? K; cbn in K |- *; intuition auto|split; [reflexivity|exact Sq]|cbn [app]].
  apply (safe_then any w s _ _ _ ["OTHER_PERSON"%string]); [left; reflexivity|repeat constructor; intros []|cbn; intuition (subst; discriminate)|intros ? K; cbn in K |- *; intuition auto|split; [reflexivity|exact Sf]|cbn [app]].
  apply (safe_then any w s _ _ _ ["EMITTER_NAME"%string]); [left; reflexivity|repeat constructor; intros []|cbn; intuition (subst; discriminate)|intros ? K; cbn in K |- *; intuition auto| |cbn [app]].
  { intros attribute named [[= <- <-]|[]]. exists po, x, names. split; [exact Hpo|]. split; [exact Hx|]. split; [exact Hnames|]. split; [exact Nn|]. left.
    intros row Hrow. apply Hin in Hrow. destruct (Hm _ Hrow) as (_ & K & _). split; [exact K|]. intros l El. apply (Nl l). now rewrite <- El. }
  apply (safe_then any w s _ _ _ ["RECEIVER_NAME"%string]); [left; reflexivity|repeat constructor; intros []|cbn; intuition (subst; discriminate)|intros ? K; cbn in K |- *; intuition auto| |cbn [app]].
  { intros attribute named [[= <- <-]|[]]. exists po, x, names. split; [exact Hpo|]. split; [exact Hx|]. split; [exact Hnames|]. split; [exact Nn|]. left.
    intros row Hrow. pose proof (Hin _ _ Hrow) as Hi. destruct Hrow as (_ & (date & T) & _). rewrite !Forall_cons_iff in T. destruct T as (_ & _ & T3 & _). unfold tells in *; cbn [tells_given] in T3.
    destruct (Hm _ Hi) as (K1 & _ & K2). destruct (T3 (Sr _)) as [K|(_ & _ & K)]; [|contradiction]. split; [now apply K2|]. intros l El. apply (Nl l). rewrite <- El. now apply K2. }
  apply (safe_then any w s _ _ _ []); [left; reflexivity|constructor|intros c []|intros ? []|intros ? []|cbn [app]].
  apply (safe_then any w s _ _ _ []); [left; reflexivity|constructor|intros c []|intros ? []| |apply safe_end].
  destruct (Hj _ Hjudge) as (st & b & Hg). cbn [safe_on]. split; [exists s; now rewrite Hst|]. split; [intros i Hi; exists s; now rewrite Hst|]. split; [eapply sure_uniform; eauto|].
  intros v Hv. inversion Hv; try congruence. unfold vq. eauto.
Qed.
Print Assumptions C134_hello_world.

Lemma hello_well_formed : well_formed hello.
Proof.
  apply (C134_hello_world hello 0 1 0 when hello_story_of _ hello_shape hello_reachable).
  - assert (Es : nth_error (w_stories hello) 0 = Some hello_story_of) by (destruct hello_shape as [-> _ _ _]; reflexivity).
    refine (proj1 (C134_made_with_the_api _ _ _ _ hello_world_built Es _ _)).
    + assert (E : Forall (fun x => In (fst (snd x)) (st_states hello_story_of)) (st_timer hello_story_of)) by (vm_compute; repeat constructor).
      intros i st r Hin. rewrite Forall_forall in E. exact (E _ Hin).
    + eexists. vm_compute. reflexivity.
  - intros judge Hin.
    set (f := fun o => match o with OpBack _ j => Some j | _ => None end).
    assert (E : map f (st_ops hello_story_of) = [None; None; None; None; None; None; Some 3]) by (vm_compute; reflexivity).
    pose proof (in_map f _ _ Hin) as K. change (f (OpBack 0 judge)) with (Some judge) in K.
    rewrite E in K. assert (J : judge = 3) by (clear - K; cbn in K; intuition congruence). rewrite J. clear - J. eexists _, _. vm_compute. reflexivity.
  - vm_compute. discriminate.
  - assert (E : match nth_error (w_rels hello) 0 with Some rel => stored rel = [(s_ "A", s_ "a0", 0); (s_ "A", s_ "a1", 1); (s_ "B", s_ "b0", 0); (s_ "B", s_ "b1", 1); (s_ "C", s_ "c0", 0); (s_ "C", s_ "c1", 1)]%Q | None => False end) by (vm_compute; reflexivity).
    unfold selectable. destruct (nth_error (w_rels hello) 0) as [rel|]; [|contradiction]. exists rel. split; [reflexivity|]. right. split; [|split].
    + intros a s o o' Es Hin Hp. destruct hello_shape as [Hst _ [j Ho] _]. rewrite Hst in Es. assert (s = hello_story_of) by (destruct a as [|[|a]]; cbn in Es; congruence). subst s.
      rewrite Ho in Hin. cbn in Hin. decompose [or] Hin; subst; try contradiction; inversion Hp; subst; cbn; intuition discriminate.
    + intros f t q Hin. rewrite E in Hin. cbn in Hin. intuition (match goal with K : _ = _ |- _ => injection K as <- <- <- end); discriminate.
    + intros f Hl. unfold tos_stored in Hl. rewrite E in *. cbn [filter map fst snd] in Hl.
      destruct (keqb_spec f (s_ "A")) as [->|N1]; [exists (s_ "a1"), 1%Q; cbn; split; [tauto|reflexivity]|].
      destruct (keqb_spec f (s_ "B")) as [->|N2]; [exists (s_ "b1"), 1%Q; cbn; split; [tauto|reflexivity]|].
      destruct (keqb_spec f (s_ "C")) as [->|N3]; [exists (s_ "c1"), 1%Q; cbn; split; [tauto|reflexivity]|].
      exfalso. destruct (keqb_spec (s_ "A") f); [congruence|]. destruct (keqb_spec (s_ "B") f); [congruence|]. destruct (keqb_spec (s_ "C") f); [congruence|]. cbn in Hl. lia.
  - assert (E : match nth_error (w_rels hello) 1 with Some rel => stored rel = [(s_ "A", s_ "B", 1); (s_ "A", s_ "C", 1); (s_ "B", s_ "A", 1); (s_ "C", s_ "A", 1)]%Q | None => False end) by (vm_compute; reflexivity).
    unfold selectable. destruct (nth_error (w_rels hello) 1) as [rel|]; [|contradiction]. exists rel. split; [reflexivity|]. left.
    intros f t q Hin. rewrite E in Hin. cbn in Hin. intuition (match goal with K : _ = _ |- _ => injection K as <- <- <- end); reflexivity.
  - assert (E1 : items hello 1 (s_ "A") = [s_ "B"; s_ "C"]) by (vm_compute; reflexivity). assert (E2 : items hello 1 (s_ "B") = [s_ "A"]) by (vm_compute; reflexivity).
    assert (E3 : items hello 1 (s_ "C") = [s_ "A"]) by (vm_compute; reflexivity).
    assert (Ei : st_ids hello_story_of = [s_ "A"; s_ "B"; s_ "C"]) by (vm_compute; reflexivity).
    intros i Hi. rewrite Ei in Hi. destruct Hi as [<-|[<-|[<-|[]]]]; rewrite ?E1, ?E2, ?E3; clear;
      (split; [discriminate|]; split; [cbn; tauto|intros y Hy; cbn in Hy |- *; tauto]).
  - vm_compute. repeat constructor; cbn; intuition discriminate.
  - intros l K. cbn in K. intuition discriminate.
Qed.

(** An hour of the example, then calls from outside, then a run that starts over: nothing raises. *)
Example C134_example : well_formed hello /\ startable disk logs_folder false /\ (0 < Clock.c_step (w_clock hello))%Z /\
  Forall (sensible hello) [HExec 0; HClock; HForce 0 [s_ "A"; s_ "C"]; HExec 0; HReset 0 (Some [s_ "B"]); HTransit 0 [s_ "A"] ["default"%string]; HTick 0 [s_ "A"]; HReset 0 None].
Proof.
  split; [exact hello_well_formed|]. split; [exact logging_startable|]. split; [vm_compute; reflexivity|].
  assert (Es : nth_error (w_stories hello) 0 = Some hello_story_of) by (destruct hello_shape as [-> _ _ _]; reflexivity).
  assert (Si : story_in hello 0) by (exists hello_story_of; exact Es).
  assert (Ei : st_ids hello_story_of = [s_ "A"; s_ "B"; s_ "C"]) by (vm_compute; reflexivity).
  assert (Mi : forall i, In i [s_ "A"; s_ "B"; s_ "C"] -> member_of hello 0 i) by (intros i Hi; exists hello_story_of; rewrite Ei; auto).
  assert (Ed : state_in hello 0 "default"%string) by (exists hello_story_of; split; [exact Es|exact (built_default _ _ _ _ hello_world_built Es)]).
  rewrite !Forall_cons_iff. cbn [sensible]. split; [exact Si|]. split; [exact I|]. split; [|split; [exact Si|split; [|split; [|split; [|split; [exact Si|constructor]]]]]].
  - split; [exact Si|]. intros i Hi. apply Mi. cbn in *. tauto.
  - split; [exact Si|]. split; [repeat constructor; intros []|]. intros i Hi. apply Mi. cbn in *. tauto.
  - split; [exact Si|]. split; [reflexivity|]. split; [intros i Hi; apply Mi; cbn in *; tauto|]. intros st [<-|[]]. exact Ed.
  - split; [exact Si|]. intros i Hi. apply Mi. cbn in *. tauto.
Qed.

(** A friend for everybody is needed: the same circus in which "C" has none raises a KeyError, when the name
    of nobody is looked up. *)
Definition lonely : world := calls people (firstn 4 hello_calls ++ CRelAdd 1 [s_ "A"; s_ "B"] [s_ "B"; s_ "A"] :: skipn 5 hello_calls).
Definition lonely_story : story := nth 0 (w_stories lonely) (mkStory "" 0 "" 0 false [] [] [] [] []).
Theorem C134_friendless_refuted : exists w s names, built stream w /\ hello_circus w 0 1 0 when s names /\
  items w 1 (s_ "A") = [s_ "B"] /\ items w 1 (s_ "B") = [s_ "A"] /\ items w 1 (s_ "C") = [] /\ map fst names = st_ids s /\ st_ids s = [s_ "A"; s_ "B"; s_ "C"] /\
  startable disk logs_folder false /\ fst (run (2 * hour) logs_folder false w disk) = Err KeyError.
Proof.
  exists lonely, lonely_story, [(s_ "A", s_ "Ann"); (s_ "B", s_ "Bob"); (s_ "C", s_ "Cid")]. split.
  { unfold lonely, people. apply built_calls; [apply built_calls; [apply built_new|]|]; repeat constructor; intros l; apply Permutation_refl. }
  split.
  { constructor.
    - unfold lonely_story. assert (E : length (w_stories lonely) = 1) by (vm_compute; reflexivity). destruct (w_stories lonely) as [|s [|? ?]]; try discriminate. reflexivity.
    - vm_compute. reflexivity.
    - eexists. vm_compute. reflexivity.
    - eexists _, 0. split; [vm_compute; reflexivity|]. split; vm_compute; reflexivity. }
  split; [vm_compute; reflexivity|]. split; [vm_compute; reflexivity|]. split; [vm_compute; reflexivity|]. split; [vm_compute; reflexivity|].
  split; [vm_compute; reflexivity|]. split; [exact logging_startable|]. vm_compute. reflexivity.
Qed.
Print Assumptions C134_friendless_refuted.
