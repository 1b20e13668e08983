(** Properties of the file helpers, of a circus's names, of its runs and of its log files. *)
From Coq Require Import Permutation.
From Verif Require Import Base BaseFacts Rng Utils Relationship Frame Gens Clock Attribute World Story Ops Fs Circus
  SpecStory StoryNew SpecWorld SpecFs FsFacts SpecCircus CircusFacts CircusProps NamesKept Samples StorySamples.

(** ** Samples *)
Definition disk : node lines :=
  Dir [("out"%string, Dir [("old"%string, Dir [("visits.csv"%string, File [[s_ "x"]]); ("deep"%string, Dir [])]);
                           ("keep.txt"%string, File [])])].
Definition logs_folder : path := ["out"; "logs"]%string.
Definition old_folder : path := ["out"; "old"]%string.

(** The first story logs its people at every step to "visits" and to "seen"; the second one logs every
    third step to [id]. *)
Definition logging (id : string) : world :=
  town2 1 true [OpFieldLogger "visits" ["PERSON"]%string []; OpFieldLogger "seen" [] []]
        0 true [OpGenerate 2 "x" None; OpChain [OpFieldLogger id ["x"; "PERSON"]%string []]].
Definition lasting : Z := (5 * hour / 2)%Z.

(** What a history emits. *)
Fixpoint collect (w : world) (hs : list happening) : logs :=
  match hs with
  | [] => []
  | h :: hs' => (match h with HExec a => ok_or [] (fst (execute a w)) | _ => [] end) ++ collect (snd (happen h w)) hs'
  end.
Lemma collect_emits hs : forall w, all_ok w hs = true -> emits w hs (collect w hs) (after w hs).
Proof.
  induction hs as [|h hs IH]; intros w H; cbn [all_ok after collect] in *; [constructor|].
  apply andb_true_iff in H as [H1 H2].
  assert (O : happen h w = (Ok tt, snd (happen h w))) by (destruct (happen h w) as [[[]|e] w1]; [reflexivity|discriminate]).
  destruct h; try (eapply emits_other; [easy|exact O|now apply IH]).
  eapply emits_exec; [|now apply IH]. cbn [happen] in *. destruct (execute a w) as [[l|e] w1]; [reflexivity|discriminate].
Qed.

(** ** C69.  ensure_non_existing_dir deletes that tree and nothing else. *)
Theorem C69_deletes_tree {C} (fs : node C) (p : path) : p <> [] ->
  exists fs', ensure_non_existing_dir fs p = Ok fs' /\
    (forall q, at_or_below p q -> see fs' q = Nothing) /\
    (forall q, ~ at_or_below p q -> see fs' q = see fs q).
Proof. exact (ensure_non_existing_spec fs p). Qed.
Print Assumptions C69_deletes_tree.

Theorem C69_ensure_folder {C} (fs fs' : node C) (p : path) :
  ensure_folder_exists fs p = Ok fs' ->
  see fs' p <> Nothing /\ (forall q, ~ at_or_above p q -> see fs' q = see fs q) /\
  (forall q, see fs q <> Nothing -> see fs' q = see fs q).
Proof.
  unfold ensure_folder_exists. destruct (path_exists fs p) eqn:E; intros H.
  - injection H as <-. apply path_exists_see in E. auto.
  - pose proof (makedirs_through _ _ _ H) as T. apply makedirs_see in H. destruct H as (A & B & D).
    split; [rewrite B; [easy|]; exists []; now rewrite app_nil_r|]. split; [exact D|].
    intros q Hq. destruct (above_dec p q) as [U|U]; [|now apply D].
    rewrite B by exact U. destruct (see fs q) eqn:Es; [easy|now apply T in Es|easy].
Qed.
Print Assumptions C69_ensure_folder.

Example C69_example :
  see disk (old_folder ++ ["visits.csv"%string]) = AFile [[s_ "x"]] /\
  exists fs', ensure_non_existing_dir disk old_folder = Ok fs' /\
    see fs' old_folder = Nothing /\ see fs' ["out"%string; "keep.txt"%string] = AFile [].
Proof. split; [reflexivity|]. eexists. split; [vm_compute; reflexivity|]. split; reflexivity. Qed.

(** ** C19.  run lasts ceil(duration/step) steps; each step executes every story once, in the
    order of their creation, then moves the clock. *)
Theorem C19_run_steps duration folder del w fs w' fs' tr :
  run duration folder del w fs = (Ok tt, (w', fs', tr)) -> folder <> [] -> (0 < c_step (w_clock w))%Z ->
  exists n, covers (c_step (w_clock w)) duration n /\
    history w (steps_of (length (w_stories w)) n) w' /\
    c_date (w_clock w') = (c_date (w_clock w) + Z.of_nat n * c_step (w_clock w))%Z.
Proof. exact (run_history duration folder del w fs w' fs' tr). Qed.
Print Assumptions C19_run_steps.

(** Conversely, if these steps can be executed the run does not raise. *)
Theorem C19_run_completes duration folder del w fs n w' :
  startable fs folder del -> (0 < c_step (w_clock w))%Z -> covers (c_step (w_clock w)) duration n ->
  history w (steps_of (length (w_stories w)) n) w' ->
  exists fs' tr, run duration folder del w fs = (Ok tt, (w', fs', tr)).
Proof.
  intros H1 H2 H3 H4. apply history_emits in H4 as [L H4].
  destruct (run_files duration folder del w fs n L w' H1 H2 H3 H4) as (fs' & tr & H & _). now exists fs', tr.
Qed.
Print Assumptions C19_run_completes.

Lemma logging_covers id : covers (c_step (w_clock (logging id))) lasting 3.
Proof.
  replace (c_step (w_clock (logging id))) with hour by (vm_compute; reflexivity). unfold lasting.
  split; [vm_compute; discriminate|]. intros m Hm. unfold hour in Hm. destruct m as [|[|[|m]]]; try lia; vm_compute in Hm; exfalso; apply Hm; reflexivity.
Qed.
Lemma logging_startable : startable disk logs_folder false.
Proof.
  left. split; [reflexivity|]. intros q c [r Hr]. unfold logs_folder in Hr.
  destruct q as [|a [|b [|x q]]]; cbn in Hr; [vm_compute; easy| | |]; injection Hr; intros; subst; vm_compute; easy.
Qed.
Lemma old_startable : startable disk old_folder true.
Proof. right. split; [easy|]. split; [vm_compute; discriminate|reflexivity]. Qed.
Lemma logging_emits : emits (logging "second") (steps_of 2 3) (collect (logging "second") (steps_of 2 3))
  (after (logging "second") (steps_of 2 3)).
Proof. apply collect_emits. vm_compute. reflexivity. Qed.

Example C19_example : exists w' fs' tr,
  run lasting logs_folder false (logging "second") disk = (Ok tt, (w', fs', tr)) /\
  history (logging "second") (steps_of 2 3) w'.
Proof.
  pose proof logging_emits as E. apply emits_history in E.
  destruct (C19_run_completes lasting logs_folder false (logging "second") disk 3 _ logging_startable eq_refl (logging_covers _) E)
    as (fs' & tr & H).
  exists (after (logging "second") (steps_of 2 3)), fs', tr. split; assumption.
Qed.

(** ** C20.  The log files hold exactly the emitted rows, in order. *)
Theorem C20_log_files duration folder del w fs n L w' :
  startable fs folder del -> (0 < c_step (w_clock w))%Z -> covers (c_step (w_clock w)) duration n ->
  emits w (steps_of (length (w_stories w)) n) L w' ->
  exists fs' tr, run duration folder del w fs = (Ok tt, (w', fs', tr)) /\
    folder_holds fs' folder L /\
    (see fs' folder = match L with [] => Nothing | _ => ADir end) /\
    (forall q, ~ at_or_above folder q -> ~ at_or_below folder q -> see fs' q = see fs q).
Proof. exact (run_files duration folder del w fs n L w'). Qed.
Print Assumptions C20_log_files.

Example C20_example :
  emits (logging "second") (steps_of 2 3) (collect (logging "second") (steps_of 2 3)) (after (logging "second") (steps_of 2 3)) /\
  log_content "visits" (collect (logging "second") (steps_of 2 3)) =
    AFile [[s_ "PERSON"]; [s_ "A"]; [s_ "B"]; [s_ "C"]; [s_ "A"]; [s_ "B"]; [s_ "C"]; [s_ "A"]; [s_ "B"]; [s_ "C"]] /\
  log_content "second" (collect (logging "second") (steps_of 2 3)) =
    AFile [[s_ "x"; s_ "PERSON"]; [vz 1; s_ "A"]; [vz 1; s_ "B"]; [vz 1; s_ "C"]] /\
  log_content "other" (collect (logging "second") (steps_of 2 3)) = Nothing.
Proof. split; [exact logging_emits|]. vm_compute. auto. Qed.

(** ** C21.  At every crash point each log file is a prefix of what it is at the end. *)
Theorem C21_crash_prefix duration folder del w fs r w' fs' tr :
  run duration folder del w fs = (r, (w', fs', tr)) -> folder <> [] -> (0 < c_step (w_clock w))%Z ->
  exists fs0, cleaned fs folder del fs0 /\
    forall tr1, crash_point tr tr1 -> exists fs1, apply_events fs0 tr1 = (Ok tt, fs1, tr1) /\
      forall p, file_prefix fs1 fs' p.
Proof. exact (run_crash duration folder del w fs r w' fs' tr). Qed.
Print Assumptions C21_crash_prefix.

Example C21_example : exists w' fs' tr,
  run lasting logs_folder false (logging "second") disk = (Ok tt, (w', fs', tr)) /\ length tr = 8 /\
  crash_point tr (firstn 5 tr).
Proof.
  destruct C19_example as (w' & fs' & tr & H & _). exists w', fs', tr. split; [exact H|].
  assert (E : tr = snd (snd (run lasting logs_folder false (logging "second") disk))) by now rewrite H.
  split; [rewrite E; vm_compute; reflexivity|].
  rewrite <- (firstn_skipn 5 tr) at 1. constructor.
Qed.

(** ** C22.  run refuses to overwrite; told to delete, it leaves nothing of the old folder. *)
Theorem C22_refuses duration folder w fs : see fs folder <> Nothing ->
  exists e, run duration folder false w fs = (Err e, (w, fs, [])).
Proof. exact (run_refuses duration folder w fs). Qed.
Print Assumptions C22_refuses.

Theorem C22_deletes duration folder w fs : folder <> [] ->
  exists fs0, (forall q, at_or_below folder q -> see fs0 q = Nothing) /\
    (forall q, ~ at_or_below folder q -> see fs0 q = see fs q) /\
    (run duration folder true w fs = run duration folder false w fs0 \/
     exists e, run duration folder true w fs = (Err e, (w, fs, []))).
Proof. exact (run_deletes duration folder w fs). Qed.
Print Assumptions C22_deletes.

(** the second case is only a clock with a zero step *)
Theorem C22_deletes_and_runs duration folder w fs : folder <> [] -> (c_step (w_clock w) <> 0)%Z ->
  exists fs0, (forall q, at_or_below folder q -> see fs0 q = Nothing) /\
    (forall q, ~ at_or_below folder q -> see fs0 q = see fs q) /\
    run duration folder true w fs = run duration folder false w fs0.
Proof.
  intros Hf Hs. destruct (ensure_non_existing_spec fs folder Hf) as (fs0 & E0 & A & B). exists fs0.
  split; [exact A|]. split; [exact B|].
  unfold run, n_iterations. destruct (Z.eqb_spec (c_step (w_clock w)) 0) as [E|_]; [contradiction|].
  assert (E1 : path_exists fs0 folder = false) by (apply path_missing_see, A; exists []; now rewrite app_nil_r).
  rewrite E1. destruct (path_exists fs folder) eqn:Ex; [now rewrite E0|].
  unfold ensure_non_existing_dir in E0. unfold path_exists in Ex. destruct (lookup fs folder); [easy|].
  now injection E0 as ->.
Qed.
Print Assumptions C22_deletes_and_runs.

Example C22_example :
  see disk old_folder <> Nothing /\
  see (snd (fst (snd (run lasting old_folder true (logging "second") disk)))) (old_folder ++ ["deep"%string]) = Nothing /\
  fst (run lasting old_folder true (logging "second") disk) = Ok tt.
Proof. split; [vm_compute; discriminate|]. split; vm_compute; reflexivity. Qed.

(** ** C23.  Rows of a log file are aligned with its header.
    Refuted: two loggers sharing a log id but not their columns write rows in their own order
    under the header of the first one. *)
Theorem C23_refuted : exists w fs folder duration id header row rows,
  built stream w /\ creatable fs folder /\
  fst (run duration folder false w fs) = Ok tt /\
  see (snd (fst (snd (run duration folder false w fs)))) (folder ++ [(id ++ ".csv")%string]) = AFile (header :: rows) /\
  In row rows /\ length row <> length header.
Proof.
  exists (logging "visits"), disk, logs_folder, lasting, "visits"%string, [s_ "PERSON"], [vz 1; s_ "A"].
  eexists. split; [apply town2_built|].
  split; [destruct logging_startable as [H|(_ & _ & H)]; [exact H|discriminate]|].
  split; [vm_compute; reflexivity|]. split; [vm_compute; reflexivity|]. split; [vm_compute; tauto|]. easy.
Qed.
Print Assumptions C23_refuted.

(** When every logger of the log id lists the same columns, the file has these columns as
    header and every row below is a row of a frame having exactly these columns. *)
Theorem C23_same_columns duration folder del w fs w' fs' tr id cols :
  run duration folder del w fs = (Ok tt, (w', fs', tr)) -> startable fs folder del -> (0 < c_step (w_clock w))%Z ->
  cols <> [] -> loggers_agree w id cols ->
  exists n L, covers (c_step (w_clock w)) duration n /\ emits w (steps_of (length (w_stories w)) n) L w' /\
    (forall d, In d (frames_of id L) -> df_cols d = cols) /\
    Forall (fun row => length row = length cols) (emitted_rows id L) /\
    (see fs' (folder ++ [(id ++ ".csv")%string]) = Nothing /\ emitted_rows id L = [] \/
     see fs' (folder ++ [(id ++ ".csv")%string]) = AFile (map VStr cols :: emitted_rows id L)).
Proof. exact (run_aligned duration folder del w fs w' fs' tr id cols). Qed.
Print Assumptions C23_same_columns.

Example C23_example : exists w' fs' tr,
  run lasting logs_folder false (logging "second") disk = (Ok tt, (w', fs', tr)) /\
  loggers_agree (logging "second") "second" ["x"; "PERSON"]%string.
Proof.
  destruct C19_example as (w' & fs' & tr & H & _). exists w', fs', tr. split; [exact H|].
  intros a s o c ex Hs Ho Hp.
  assert (Hops : map st_ops (w_stories (logging "second")) =
    [[OpFieldLogger "visits" ["PERSON"]%string []; OpFieldLogger "seen" [] []; OpBack 0 3];
     [OpGenerate 2 "x" None; OpChain [OpFieldLogger "second" ["x"; "PERSON"]%string []]; OpBack 1 4]]) by (vm_compute; reflexivity).
  apply (map_nth_error st_ops) in Hs. rewrite Hops in Hs.
  destruct a as [|[|a]]; cbn in Hs; [| |now destruct a].
  - injection Hs as Hs. rewrite <- Hs in Ho. destruct Ho as [<-|[<-|[<-|[]]]]; inversion Hp.
  - injection Hs as Hs. rewrite <- Hs in Ho. destruct Ho as [<-|[<-|[<-|[]]]]; inversion Hp as [|ops o' Hi Hq]; subst.
    destruct Hi as [<-|[]]. inversion Hq; subst. reflexivity.
Qed.

(** ** C24.  Names are unique. *)
Theorem C24_population_refused name g size ids w : In name (map fst (w_pop_names w)) ->
  create_population name g size ids w = (Err ValueError, w).
Proof.
  intros H. unfold create_population, bindM, get. unfold dmem.
  destruct (dget name (w_pop_names w)) eqn:E; [reflexivity|]. apply dget_None in E. contradiction.
Qed.
Print Assumptions C24_population_refused.

Theorem C24_story_refused order name p f default states t auto w : In name (map st_name (w_stories w)) ->
  create_story order name p f default states t auto w = (Err ValueError, w).
Proof.
  intros H. unfold create_story, bindM, get.
  destruct (find_story name (w_stories w) 0) eqn:E; [reflexivity|]. apply find_story_In in E. contradiction.
Qed.
Print Assumptions C24_story_refused.

Theorem C24_generator_refused id g w : In id (map fst (w_gen_names w)) ->
  attach_generator id g w = (Err ValueError, w).
Proof.
  intros H. unfold attach_generator, bindM, get. unfold dmem.
  destruct (dget id (w_gen_names w)) eqn:E; [reflexivity|]. apply dget_None in E. contradiction.
Qed.
Print Assumptions C24_generator_refused.

(** In every circus, the names of the stories, of the populations and of the generators are
    pairwise distinct; whatever is called next, a name goes on denoting the same object. *)
Theorem C24_names_unique g w : built g w ->
  NoDup (map st_name (w_stories w)) /\ NoDup (map fst (w_pop_names w)) /\ NoDup (map fst (w_gen_names w)).
Proof. exact (built_names g w). Qed.
Print Assumptions C24_names_unique.

Theorem C24_names_kept c w : proper c ->
  (exists new, map st_name (w_stories (after_call c w)) = map st_name (w_stories w) ++ new) /\
  (forall n p, dget n (w_pop_names w) = Some p -> dget n (w_pop_names (after_call c w)) = Some p) /\
  (forall n i, dget n (w_gen_names w) = Some i -> dget n (w_gen_names (after_call c w)) = Some i).
Proof. intros H. destruct (call_kn c w H) as (_ & H1 & H2 & H3). auto. Qed.
Print Assumptions C24_names_kept.

(** A new name is accepted and denotes the new object. *)
Theorem C24_new_generator id g w : ~ In id (map fst (w_gen_names w)) ->
  exists w', attach_generator id g w = (Ok tt, w') /\ dget id (w_gen_names w') = Some g.
Proof.
  intros H. unfold attach_generator, bindM, get. unfold dmem.
  destruct (dget id (w_gen_names w)) eqn:E; [apply dget_Some_key in E; contradiction|].
  eexists. split; [reflexivity|]. cbn. now rewrite dget_dset, keqb_refl.
Qed.
Print Assumptions C24_new_generator.

Example C24_example : built stream (logging "second") /\
  In "calls"%string (map st_name (w_stories (logging "second"))) /\
  In "people"%string (map fst (w_pop_names (logging "second"))) /\
  fst (ignore (attach_generator "g" 1) (logging "second"), tt) <> logging "second".
Proof.
  split; [apply town2_built|]. split; [vm_compute; tauto|]. split; [vm_compute; tauto|].
  intros E. apply (f_equal (fun w => length (w_gen_names w))) in E. vm_compute in E. discriminate.
Qed.

(** ** C25.  The log files do not depend on the iteration order of the logs dictionaries. *)
Theorem C25_order_independent duration folder w fs w' fs' tr n w2 fs2 tr2 :
  creatable fs folder -> (0 < c_step (w_clock w))%Z -> covers (c_step (w_clock w)) duration n ->
  run duration folder false w fs = (Ok tt, (w', fs', tr)) ->
  reordered_run folder (w, fs, []) (steps_of (length (w_stories w)) n) (w2, fs2, tr2) ->
  w2 = w' /\ same_fs fs2 fs'.
Proof. exact (run_order duration folder w fs w' fs' tr n w2 fs2 tr2). Qed.
Print Assumptions C25_order_independent.

(** a run saving the logs of every execution backwards *)
Definition final (st : result unit * rstate) : rstate := snd st.
Fixpoint backwards (folder : path) (st : rstate) (hs : list happening) : result unit * rstate :=
  match hs with
  | [] => (Ok tt, st)
  | h :: hs' =>
      let '(w, fs, tr) := st in
      match h with
      | HExec a => match execute a w with
                   | (Ok l, w1) => match save_all folder (w1, fs, tr) (rev l) with
                                   | (Ok _, st1) => backwards folder st1 hs'
                                   | (Err e, st1) => (Err e, st1)
                                   end
                   | (Err e, w1) => (Err e, (w1, fs, tr))
                   end
      | HClock => backwards folder (increment_clock w, fs, tr) hs'
      | _ => (Err OSError, st)
      end
  end.
Lemma backwards_run folder hs : forall st, is_ok (fst (backwards folder st hs)) = true ->
  reordered_run folder st hs (snd (backwards folder st hs)).
Proof.
  induction hs as [|h hs IH]; intros [[w fs] tr] H; cbn [backwards] in *; [constructor|].
  destruct h; try discriminate.
  - destruct (execute a w) as [[l|e] w1] eqn:E; [|discriminate].
    destruct (save_all folder (w1, fs, tr) (rev l)) as [[[]|e] st1] eqn:S; [|discriminate].
    eapply rr_exec; [exact E|apply Permutation_rev|exact S|now apply IH].
  - constructor. now apply IH.
Qed.
Example C25_example : exists w' fs' tr st2,
  run lasting logs_folder false (logging "second") disk = (Ok tt, (w', fs', tr)) /\
  reordered_run logs_folder (logging "second", disk, []) (steps_of 2 3) st2 /\
  snd st2 <> tr.
Proof.
  destruct C19_example as (w' & fs' & tr & H & _).
  exists w', fs', tr, (snd (backwards logs_folder (logging "second", disk, []) (steps_of 2 3))).
  split; [exact H|]. split; [apply backwards_run; vm_compute; reflexivity|].
  assert (E : tr = snd (snd (run lasting logs_folder false (logging "second") disk))) by now rewrite H.
  rewrite E. intros F. apply (f_equal (fun l => nth 1 l (EMakedirs []))) in F. vm_compute in F. discriminate.
Qed.
