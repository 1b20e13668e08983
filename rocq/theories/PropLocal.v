(** Locality and independence (C104-C106): what a call, an operation or a story can change, and
    on what its result depends. *)
From Verif Require Import Base BaseFacts Rng Utils Relationship Frame Gens Clock Attribute World Story Ops Fs Circus
  SpecStory SpecWorld SpecLocal Samples StorySamples LocalFacts LocalOps LocalCalls.

(** ** C104.  Nothing changes but the objects one was given, exceptions included. *)
Theorem C104_operation o d w x : ~ changes w o x -> same x w (snd (run_op o d w)).
Proof. exact (op_same o d w x). Qed.
Print Assumptions C104_operation.

Theorem C104_story a w x : ~ story_changes w a x -> same x w (snd (execute a w)).
Proof. exact (exec_same a w x). Qed.
Print Assumptions C104_story.

Theorem C104_call c w x : present x w -> ~ call_changes w c x -> same x w (after_call c w).
Proof. exact (call_same c w x). Qed.
Print Assumptions C104_call.

(** Footprints of the samples. *)
Lemma no_parents h i j : option_map parents (nth_error h i) = Some [] -> built_from h i j -> j = i.
Proof.
  intros E H. destruct H as [i|i p f j Hi|i p e j Hi|i p e j Hi]; [reflexivity|..]; rewrite Hi in E; discriminate.
Qed.
Lemma alone w g x : option_map parents (nth_error (w_gens w) g) = Some [] -> generator_of w g x -> x = OGenerator g.
Proof. intros E (j & -> & H). f_equal. eapply no_parents; eauto. Qed.
Lemma known_story w a t ops (f : op -> object -> Prop) x :
  option_map fixed (nth_error (w_stories w) a) = Some (t, ops) -> story_objects f w a x ->
  x = OStory a \/ x = OTimer t \/ exists o, In o ops /\ f o x.
Proof.
  intros E [H|[(s & Hs & H)|(s & o & Hs & Hi & H)]]; [now left|right; left|right; right];
    rewrite Hs in E; injection E as E1 E2; [now rewrite <- E1|]. exists o. now rewrite <- E2.
Qed.

(** Two stories: the first draws from generator 2 (a constant), the second makes members of the
    first one act. *)
Definition drawing : list op := [OpGenerate 2 "x" None; OpFieldLogger "draws" [] []].
Definition forcing : list op := [OpForce 0 "PERSON" None].
Definition stamping : list op := [OpTimestamp "TIME" true (fun z => vz z); OpFieldLogger "stamps" [] []].
Definition two (ops0 ops1 : list op) : world := after (town2 0 true ops0 1 true ops1) [HForce 0 [s_ "A"; s_ "C"]; HForce 1 [s_ "B"]].

Lemma two_0 ops1 : option_map fixed (nth_error (w_stories (two drawing ops1)) 0) = Some (0, drawing ++ [OpBack 0 3]).
Proof. vm_compute. reflexivity. Qed.
Lemma two_1 ops0 ops1 : option_map fixed (nth_error (w_stories (two ops0 ops1)) 1) = Some (1, ops1 ++ [OpBack 1 4]).
Proof. vm_compute. reflexivity. Qed.
Lemma two_gens ops0 ops1 : map parents (w_gens (two ops0 ops1)) = [[]; []; []; []; []].
Proof. vm_compute. reflexivity. Qed.
Lemma two_alone ops0 ops1 g x : g < 5 -> generator_of (two ops0 ops1) g x -> x = OGenerator g.
Proof.
  intros Hg. apply alone. pose proof (two_gens ops0 ops1) as E.
  assert (X : nth_error (map parents (w_gens (two ops0 ops1))) g = Some []).
  { rewrite E. do 5 (destruct g as [|g]; [reflexivity|]). lia. }
  now rewrite nth_error_map in X.
Qed.
Lemma drawing_uses ops1 x : story_uses (two drawing ops1) 0 x ->
  In x [OStory 0; OTimer 0; OGenerator 2; OGenerator 3].
Proof.
  intros H. unfold story_uses in H. apply (known_story _ _ _ _ _ _ (two_0 ops1)) in H as [->|[->|(o & Ho & H)]]; [now left|right; now left|].
  destruct Ho as [<-|[<-|[<-|[]]]]; cbn [uses changes] in H.
  - apply two_alone in H; [subst; cbn; auto|lia].
  - destruct H.
  - destruct H as [->|H]; [now left|]. apply two_alone in H; [subst; cbn; auto|lia].
Qed.
Lemma stamping_uses ops0 x : story_uses (two ops0 stamping) 1 x ->
  In x [OStory 1; OTimer 1; OClock; OGenerator 4].
Proof.
  intros H. unfold story_uses in H. apply (known_story _ _ _ _ _ _ (two_1 ops0 stamping)) in H as [->|[->|(o & Ho & H)]]; [now left|right; now left|].
  destruct Ho as [<-|[<-|[<-|[]]]]; cbn [uses changes] in H.
  - subst. cbn. auto.
  - destruct H.
  - destruct H as [->|H]; [now left|]. apply two_alone in H; [subst; cbn; auto|lia].
Qed.
Lemma changes_used w a x : story_changes w a x -> story_uses w a x.
Proof.
  intros [H|[H|(s & o & H1 & H2 & H3)]]; [now left|right; now left|]. right. right. exists s, o. auto using uses_changes.
Qed.

(** The first story acts, and leaves the second one, its timer and the clock alone. *)
Example C104_example :
  let w := two drawing stamping in
  (exists l w', execute 0 w = (Ok l, w') /\
     l = [("draws"%string, mkDf ["PERSON"; "x"]%string [(s_ "A", [s_ "A"; vz 1]); (s_ "C", [s_ "C"; vz 1])])]) /\
  ~ story_changes w 0 (OStory 1) /\ ~ story_changes w 0 (OTimer 1) /\ ~ story_changes w 0 OClock.
Proof.
  intros w. split; [apply (ran_ex []); vm_compute; reflexivity|].
  repeat apply conj; intros H; apply changes_used in H; apply drawing_uses in H; cbn in H;
    repeat (destruct H as [H|H]; [discriminate|]); destruct H.
Qed.

(** ** C105.  The result of an execution depends on the objects the story was given only. *)
Theorem C105_same_objects_same_result a w1 w2 :
  (forall x, story_uses w1 a x -> same x w1 w2) ->
  fst (execute a w1) = fst (execute a w2) /\
  forall x, story_uses w1 a x -> same x (snd (execute a w1)) (snd (execute a w2)).
Proof.
  intros H. destruct (exec_local (story_uses w1 a) (fun _ => True) a w1 w2) as (E1 & E2 & _); auto.
Qed.
Print Assumptions C105_same_objects_same_result.

(** Stories without common objects (but those neither changes) can be executed in any order:
    same logs, same circus. *)
Theorem C105_independent_stories_commute a b w :
  (forall x, story_changes w a x -> ~ story_uses w b x) ->
  (forall x, story_changes w b x -> ~ story_uses w a x) ->
  let wa := snd (execute a w) in
  let wb := snd (execute b w) in
  fst (execute a wb) = fst (execute a w) /\
  fst (execute b wa) = fst (execute b w) /\
  snd (execute a wb) = snd (execute b wa).
Proof. exact (stories_commute a b w). Qed.
Print Assumptions C105_independent_stories_commute.

Example C105_example :
  let w := two drawing stamping in
  (forall x, story_changes w 0 x -> ~ story_uses w 1 x) /\
  (forall x, story_changes w 1 x -> ~ story_uses w 0 x) /\
  (exists l w', execute 0 w = (Ok l, w') /\ l <> []) /\ (exists l w', execute 1 w = (Ok l, w') /\ l <> []).
Proof.
  intros w. repeat apply conj.
  - intros x Hc Hu. apply changes_used, drawing_uses in Hc. apply stamping_uses in Hu. cbn in Hc, Hu.
    repeat (destruct Hc as [<-|Hc]; [repeat (destruct Hu as [Hu|Hu]; [discriminate|]); destruct Hu|]). destruct Hc.
  - intros x Hc Hu. apply changes_used, stamping_uses in Hc. apply drawing_uses in Hu. cbn in Hc, Hu.
    repeat (destruct Hc as [<-|Hc]; [repeat (destruct Hu as [Hu|Hu]; [discriminate|]); destruct Hu|]). destruct Hc.
  - exists (ok_or [] (fst (execute 0 w))), (snd (execute 0 w)). split; [apply ran; vm_compute; reflexivity|]. vm_compute. discriminate.
  - exists (ok_or [] (fst (execute 1 w))), (snd (execute 1 w)). split; [apply ran; vm_compute; reflexivity|]. vm_compute. discriminate.
Qed.

(** The hypotheses matter: a story that makes members of another one act does not commute with it. *)
Theorem C105_forcing_does_not_commute :
  exists w, fst (execute 0 (snd (execute 1 w))) <> fst (execute 0 w).
Proof. exists (two drawing forcing). intros H. vm_compute in H. discriminate. Qed.
Print Assumptions C105_forcing_does_not_commute.

(** ** C106.  A history in which other things happen gives the results it gives without them,
    as long as the others do not change an object it uses. *)
Theorem C106_others_do_not_disturb (U : object -> Prop) mine w l :
  (forall h, In h l -> mine h = true -> forall x, happening_uses w h x -> U x) ->
  (forall h, In h l -> mine h = false -> forall x, happening_changes w h x -> ~ U x) ->
  outcomes mine w l = outcomes (fun _ => true) w (filter mine l).
Proof.
  intros Hm Ho.
  destruct (outcomes_independent U mine w l w w) as (E & _); auto using shape_refl, same_refl. { intros x _. apply same_refl. }
  rewrite E. clear. revert w. induction l as [|h l IH]; intros w; cbn; [reflexivity|]. destruct (mine h) eqn:E; [|apply IH].
  cbn. rewrite E. cbn. f_equal. apply IH.
Qed.
Print Assumptions C106_others_do_not_disturb.

(** and ends with the same objects. *)
Theorem C106_others_leave_the_objects (U : object -> Prop) mine w l x :
  (forall h, In h l -> mine h = true -> forall x, happening_uses w h x -> U x) ->
  (forall h, In h l -> mine h = false -> forall x, happening_changes w h x -> ~ U x) ->
  U x -> same x (after w l) (after w (filter mine l)).
Proof.
  intros Hm Ho.
  destruct (outcomes_independent U mine w l w w) as (_ & E); auto using shape_refl. { intros y _. apply same_refl. }
Qed.
Print Assumptions C106_others_leave_the_objects.

(** The draws of the first story are the same whether the second one runs or not. *)
Example C106_example :
  let w := two drawing stamping in
  let U := fun x => story_uses w 0 x in
  let mine := fun h => match h with HExec 0 => true | _ => false end in
  let l := [HExec 0; HExec 1; HClock; HExec 0; HExec 1; HClock; HExec 1; HExec 0; HClock; HExec 0] in
  (forall h, In h l -> mine h = true -> forall x, happening_uses w h x -> U x) /\
  (forall h, In h l -> mine h = false -> forall x, happening_changes w h x -> ~ U x) /\
  length (outcomes mine w l) = 4 /\ nth 1 (outcomes mine w l) (Ok []) <> nth 2 (outcomes mine w l) (Ok []).
Proof.
  intros w U mine l. split; [|split; [|split; [vm_compute; reflexivity|vm_compute; discriminate]]].
  - intros h Hin Hm. destruct h as [[|a]| | | | |]; try discriminate. auto.
  - intros h Hin Hm x Hc Hu. unfold U in Hu. apply drawing_uses in Hu.
    assert (X : h = HExec 1 \/ h = HClock). { cbn in Hin. intuition (subst; auto; discriminate). }
    destruct X as [-> | ->]; cbn [happening_changes] in Hc.
    + apply changes_used, stamping_uses in Hc. cbn in Hc, Hu.
      repeat (destruct Hc as [<-|Hc]; [repeat (destruct Hu as [Hu|Hu]; [discriminate|]); destruct Hu|]). destruct Hc.
    + destruct Hc as [->|(t & Ht & _)].
      * cbn in Hu. repeat (destruct Hu as [Hu|Hu]; [discriminate|]). destruct Hu.
      * assert (E : c_listeners (w_clock w) = []) by (vm_compute; reflexivity). rewrite E in Ht. destruct Ht.
Qed.
