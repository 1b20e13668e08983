(** C122.  Reading the log files back with load_all_logs. *)
From Coq Require Import Permutation.
From Verif Require Import Base BaseFacts Rng Utils Frame Gens World Story Ops Fs Circus Persist Reload Clock
  SpecStory SpecWorld SpecFs FsFacts SpecCircus CircusFacts CircusProps SpecPersist PersistFacts PersistSamples SpecReload ReloadProps
  Samples StorySamples PropCircus.

(** After a run in which the loggers of each log id list the same columns, load_all_logs gives one
    frame for each log id with emitted rows, and nothing else.  The frame has these columns and as many
    rows, numbered from 0.  A column comes back unchanged exactly when its values are all numbers with a
    faithful text, all booleans, or texts one of which is neither a number nor a boolean, where no text
    looks like a missing value; the emitted rows come back exactly when this holds of every column.
    A run which emits no log at all creates no folder, and load_all_logs raises. *)
Theorem C122_logs_reloaded fmt ls duration folder del w fs w' fs' tr (cols : string -> list string) :
  sane fmt -> (forall l, Permutation (ls l) l) ->
  run duration folder del w fs = (Ok tt, (w', fs', tr)) -> startable fs folder del -> (0 < c_step (w_clock w))%Z ->
  (forall id, cols id <> [] /\ plain_names (cols id) /\ loggers_agree w id (cols id)) ->
  exists n L, covers (c_step (w_clock w)) duration n /\ emits w (steps_of (length (w_stories w)) n) L w' /\
    (L = [] -> load_all_logs fmt ls fs' folder = Err OSError) /\
    (L <> [] -> exists dic, load_all_logs fmt ls fs' folder = Ok dic /\ NoDup (map fst dic) /\
       forall id,
         (emitted_rows id L = [] -> dget id dic = None) /\
         (emitted_rows id L <> [] -> exists d, dget id dic = Some d /\ df_cols d = cols id /\
            map fst (df_rows d) = map vnat (seq 0 (length (emitted_rows id L))) /\
            (forall j, j < length (cols id) ->
               (cells j (map snd (df_rows d)) = cells j (emitted_rows id L) <-> clean_values fmt (cells j (emitted_rows id L)))) /\
            (map snd (df_rows d) = emitted_rows id L <->
               forall j, j < length (cols id) -> clean_values fmt (cells j (emitted_rows id L))))).
Proof. exact (logs_reloaded fmt ls duration folder del w fs w' fs' tr cols). Qed.
Print Assumptions C122_logs_reloaded.

(** People known by a number written in digits, who log themselves at every step. *)
Definition phones : world :=
  calls circus0 [CNewGen (GConst (vz 1)); CNewGen (GConst (vz 0)); CNewGen (GConst (vz 1));
    CNewTimer (TConst 2) false; CNewTimer (TConst 0) false;
    CPopulation "people" None None (Some [s_ "0041"; s_ "0042"]);
    visit "visits" 1 true; CSetOperations 0 [OpGenerate 2 "x" None; OpFieldLogger "calls" ["PERSON"; "x"]%string []]].
Definition phone_cols (id : string) : list string := ["PERSON"; "x"]%string.

Lemma phones_agree id : phone_cols id <> [] /\ plain_names (phone_cols id) /\ loggers_agree phones id (phone_cols id).
Proof.
  split; [easy|]. split; [split; [repeat constructor; cbn; intuition discriminate|cbn; intuition discriminate]|].
  intros a s o c ex Hs Ho Hp.
  assert (Hops : map st_ops (w_stories phones) =
    [[OpGenerate 2 "x" None; OpFieldLogger "calls" ["PERSON"; "x"]%string []; OpBack 0 3]]) by (vm_compute; reflexivity).
  apply (map_nth_error st_ops) in Hs. rewrite Hops in Hs.
  destruct a as [|a]; cbn in Hs; [|now destruct a].
  injection Hs as Hs. rewrite <- Hs in Ho. destruct Ho as [<-|[<-|[<-|[]]]]; inversion Hp; subst; reflexivity.
Qed.
Lemma phones_runs : exists w' fs' tr, run lasting logs_folder false phones disk = (Ok tt, (w', fs', tr)) /\
  see fs' (logs_folder ++ ["calls.csv"%string]) =
    AFile ([s_ "PERSON"; s_ "x"] :: concat (repeat [[s_ "0041"; vz 1]; [s_ "0042"; vz 1]] 3)) /\
  exists dic d, load_all_logs plain (fun l => l) fs' logs_folder = Ok dic /\ dget "calls"%string dic = Some d /\
    map snd (df_rows d) = concat (repeat [[vz 41; vz 1]; [vz 42; vz 1]] 3).
Proof.
  exists (fst (fst (snd (run lasting logs_folder false phones disk)))), (snd (fst (snd (run lasting logs_folder false phones disk)))),
    (snd (snd (run lasting logs_folder false phones disk))).
  assert (E : fst (run lasting logs_folder false phones disk) = Ok tt) by (vm_compute; reflexivity).
  split; [|split].
  - rewrite <- E. destruct (run lasting logs_folder false phones disk) as [r [[a b] c]]. reflexivity.
  - vm_compute. reflexivity.
  - eexists. eexists. split; [vm_compute; reflexivity|]. split; vm_compute; reflexivity.
Qed.

(** Without the condition on the values the logs do not come back: ids made of digits are read as
    numbers and lose their leading zeros. *)
Theorem C122_refuted : exists fmt duration folder w fs w' fs' tr (cols : string -> list string) id rows,
  sane fmt /\ run duration folder false w fs = (Ok tt, (w', fs', tr)) /\ startable fs folder false /\
  (0 < c_step (w_clock w))%Z /\
  (forall id, cols id <> [] /\ plain_names (cols id) /\ loggers_agree w id (cols id)) /\
  see fs' (folder ++ [(id ++ ".csv")%string]) = AFile (map VStr (cols id) :: rows) /\
  In (s_ "0041") (cells 0 rows) /\
  exists dic d, load_all_logs fmt (fun l => l) fs' folder = Ok dic /\ dget id dic = Some d /\
    map snd (df_rows d) <> rows /\ ~ In (s_ "0041") (cells 0 (map snd (df_rows d))) /\ In (vz 41) (cells 0 (map snd (df_rows d))).
Proof.
  destruct phones_runs as (w' & fs' & tr & R & F & dic & d & Ld & G & Ed).
  exists plain, lasting, logs_folder, phones, disk, w', fs', tr, phone_cols, "calls"%string. eexists.
  split; [apply plain_sane|]. split; [exact R|].
  split; [exact logging_startable|]. split; [vm_compute; reflexivity|]. split; [exact phones_agree|].
  split; [exact F|]. split; [left; reflexivity|]. exists dic, d. split; [exact Ld|]. split; [exact G|]. rewrite Ed.
  split; [discriminate|]. split; [cbn; intuition discriminate|left; reflexivity].
Qed.
Print Assumptions C122_refuted.

(** The second column of the same log is clean. *)
Example C122_example : exists w' fs' tr,
  run lasting logs_folder false phones disk = (Ok tt, (w', fs', tr)) /\ startable disk logs_folder false /\
  (forall id, phone_cols id <> [] /\ plain_names (phone_cols id) /\ loggers_agree phones id (phone_cols id)) /\
  clean_values plain (repeat (vz 1) 6) /\ ~ clean_values plain (concat (repeat [s_ "0041"; s_ "0042"] 3)).
Proof.
  destruct phones_runs as (w' & fs' & tr & R & _). exists w', fs', tr. split; [exact R|].
  split; [exact logging_startable|]. split; [exact phones_agree|]. split.
  - left. intros v Hv. apply repeat_spec in Hv. right. exists (Q2Qc (inject_Z 1)). split; [exact Hv|]. apply (integers_survive plain plain_sane 1).
  - intros C. apply (read_clean plain plain_sane) in C. vm_compute in C. discriminate.
Qed.
