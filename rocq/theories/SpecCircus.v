(** Specification vocabulary for running a circus and for its log files. *)
From Coq Require Import Permutation.
From Verif Require Import Base Frame Clock World Story Ops Fs Circus SpecStory SpecFs.

(** One step of a circus with [k] stories: every story once, in the order they were created,
    then the clock moves; and [n] such steps. *)
Definition one_step (k : nat) : list happening := map HExec (seq 0 k) ++ [HClock].
Definition steps_of (k n : nat) : list happening := concat (repeat (one_step k) n).

(** [n] is the smallest number of steps covering [duration]. *)
Definition covers (step duration : Z) (n : nat) : Prop :=
  (duration <= Z.of_nat n * step)%Z /\ forall m : nat, (duration <= Z.of_nat m * step)%Z -> n <= m.

(** The log frames handed over by the executions of a history in which nothing raises, in order. *)
Inductive emits : world -> list happening -> logs -> world -> Prop :=
| emits_nil w : emits w [] [] w
| emits_exec w a l w1 hs l' w2 : execute a w = (Ok l, w1) -> emits w1 hs l' w2 ->
    emits w (HExec a :: hs) (l ++ l') w2
| emits_other w h w1 hs l w2 : (forall a, h <> HExec a) -> happen h w = (Ok tt, w1) -> emits w1 hs l w2 ->
    emits w (h :: hs) l w2.

(** What was emitted for one log id: the frames having rows, and all rows one after the other. *)
Definition frames_of (id : string) (L : logs) : list df :=
  filter (fun d => match df_rows d with [] => false | _ => true end)
    (map snd (filter (fun e => String.eqb (fst e) id) L)).
Definition emitted_rows (id : string) (L : logs) : list (list val) :=
  flat_map (fun d => map snd (df_rows d)) (frames_of id L).

(** The log file of [id]: the column names of the first frame, then every row; no file if
    nothing was emitted. *)
Definition log_content (id : string) (L : logs) : seen lines :=
  match frames_of id L with
  | [] => Nothing
  | d :: _ => AFile (map VStr (df_cols d) :: emitted_rows id L)
  end.

(** The directories leading to [folder] can be created: none of them is a file. *)
Definition creatable (fs : node lines) (folder : path) : Prop :=
  see fs folder = Nothing /\ forall q c, at_or_above folder q -> see fs q <> AFile c.

(** What is in the log folder after emitting [L]: the log files, nothing else. *)
Definition folder_holds (fs : node lines) (folder : path) (L : logs) : Prop :=
  (forall id, see fs (folder ++ [(id ++ ".csv")%string]) = log_content id L) /\
  (forall name, (forall id, name <> (id ++ ".csv")%string) -> see fs (folder ++ [name]) = Nothing) /\
  (forall a b r, see fs (folder ++ a :: b :: r) = Nothing).

(** A run interrupted after some of the writes [tr]; the last write may have been cut
    between two lines. *)
Inductive cut : event -> event -> Prop :=
| cut_create p c c1 c2 : c = c1 ++ c2 -> cut (ECreate p c) (ECreate p c1)
| cut_append p c c1 c2 : c = c1 ++ c2 -> cut (EAppend p c) (EAppend p c1).
Inductive crash_point : list event -> list event -> Prop :=
| crash_between tr1 tr2 : crash_point (tr1 ++ tr2) tr1
| crash_within tr1 e e' tr2 : cut e e' -> crash_point (tr1 ++ e :: tr2) (tr1 ++ [e']).

(** The content of the file at [p] in [a] is a prefix of its content in [b]; no file there
    is a prefix of anything. *)
Definition file_prefix (a b : node lines) (p : path) : Prop :=
  forall c, see a p = AFile c -> exists c', see b p = AFile (c ++ c').

(** A run in which the logs of each execution are saved in any order. *)
Inductive reordered_run (folder : path) : rstate -> list happening -> rstate -> Prop :=
| rr_nil st : reordered_run folder st [] st
| rr_exec w fs tr a l l' w1 st1 hs st2 : execute a w = (Ok l, w1) -> Permutation l l' ->
    save_all folder (w1, fs, tr) l' = (Ok tt, st1) -> reordered_run folder st1 hs st2 ->
    reordered_run folder (w, fs, tr) (HExec a :: hs) st2
| rr_clock w fs tr hs st2 : reordered_run folder (increment_clock w, fs, tr) hs st2 ->
    reordered_run folder (w, fs, tr) (HClock :: hs) st2.

(** [o] is [o'] or one of the operations [o'] is made of. *)
Inductive part_of (o : op) : op -> Prop :=
| part_self : part_of o o
| part_chain ops o' : In o' ops -> part_of o o' -> part_of o (OpChain ops).

(** Every logger of the log id [id], in every story of the circus, lists the columns [cols]. *)
Definition loggers_agree (w : world) (id : string) (cols : list string) : Prop :=
  forall a s o c ex, nth_error (w_stories w) a = Some s -> In o (st_ops s) ->
    part_of (OpFieldLogger id c ex) o -> c = cols.

(** The log folder is there to be created: it does not exist and can be created, or it
    exists and is to be deleted. *)
Definition startable (fs : node lines) (folder : path) (delete_existing_logs : bool) : Prop :=
  creatable fs folder \/ (folder <> [] /\ see fs folder <> Nothing /\ delete_existing_logs = true).

(** The file system on which the run starts: without the old log folder if it is to be deleted. *)
Definition cleaned (fs : node lines) (folder : path) (delete_existing_logs : bool) (fs0 : node lines) : Prop :=
  (see fs folder = Nothing /\ fs0 = fs) \/
  (see fs folder <> Nothing /\ delete_existing_logs = false /\ fs0 = fs) \/
  (see fs folder <> Nothing /\ delete_existing_logs = true /\
   (forall q, at_or_below folder q -> see fs0 q = Nothing) /\
   (forall q, ~ at_or_below folder q -> see fs0 q = see fs q)).
