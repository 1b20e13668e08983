(** Model of /repo/trumania/core/circus.py: construction, names, log files and
    run.  (Persistence of a circus is in Persist.v.) *)
From Verif Require Import Base BaseFacts Rng Utils Relationship Frame Gens Clock Attribute World Story Ops Fs.

(** circus.py:20-39 __init__ *)
Definition new_circus (g : prng) (master_seed : N) (start step : Z) : world :=
  let (seed, seeder) := next_seed (random_state g master_seed) in
  mkWorld g seeder (new_clock g start step seed) [] [] [] [] [] [] [] [] [].

(** circus.py:41-51 create_population *)
Definition create_population (name : string) (ids_gen : option nat) (size : option Z)
    (ids : option (list val)) : M nat :=
  let* names := get w_pop_names in
  if dmem name names then raise ValueError
  else
    let* p := new_population ids_gen size ids in
    let* names' := get w_pop_names in
    let* _ := modify (set_pop_names (dset name p names')) in
    ret p.

(** circus.py:85-95 get_story: the first story with that name *)
Fixpoint find_story (name : string) (stories : list story) (i : nat) : option nat :=
  match stories with
  | [] => None
  | s :: l => if keqb (st_name s) name then Some i else find_story name l (S i)
  end.

(** circus.py:68-83 create_story.  All stories of the world belong to the circus. *)
Definition create_story (order : list string -> list string) (name : string) (p : nat)
    (member_id_field : string) (default : state_gens) (states : option (dict string state_gens))
    (timer_gen : nat) (auto : bool) : M nat :=
  let* stories := get w_stories in
  match find_story name stories 0 with
  | Some _ => raise ValueError
  | None =>
      let* s := new_story order name p member_id_field default states timer_gen auto in
      let* stories' := get w_stories in
      let* _ := modify (set_stories (stories' ++ [s])) in
      ret (length stories')
  end.

(** circus.py:97-101 get_population_of *)
Definition get_population_of (name : string) : M nat :=
  let* stories := get w_stories in
  match find_story name stories 0 with
  | None => raise AttributeError
  | Some a => let* s := deref w_stories a in ret (st_pop s)
  end.

(** circus.py:103-112 attach_generator *)
Definition attach_generator (gen_id : string) (g : nat) : M unit :=
  let* names := get w_gen_names in
  if dmem gen_id names then raise ValueError
  else modify (set_gen_names (dset gen_id g names)).

(** ** Log files: a file is its list of lines, a line its list of cells.
    Simplification: quoting is not modelled (cells are kept apart). *)
Definition lines := list (list val).
Definition header_line (d : df) : list val := map VStr (df_cols d).
Definition row_lines (d : df) : lines := map snd (df_rows d).

(** What happens to the file system, in order *)
Inductive event :=
| EMakedirs (p : path)
| ECreate (p : path) (content : lines)
| EAppend (p : path) (content : lines).

Definition apply_event (fs : node lines) (e : event) : result (node lines) :=
  match e with
  | EMakedirs p => os_makedirs fs p
  | ECreate p c => write_file fs p c
  | EAppend p c => let! old := read_file fs p in write_file fs p (old ++ c)
  end.

(** The events applied one after the other, up to the first failing one. *)
Fixpoint apply_events (fs : node lines) (es : list event) : result unit * node lines * list event :=
  match es with
  | [] => (Ok tt, fs, [])
  | e :: es' =>
      match apply_event fs e with
      | Err ex => (Err ex, fs, [])
      | Ok fs' => let '(res, fs'', done) := apply_events fs' es' in (res, fs'', e :: done)
      end
  end.

Definition log_file (folder : path) (log_id : string) : path := folder ++ [(log_id ++ ".csv")%string].

(** circus.py:125-148 save_logs: the writes it makes on the file system [fs].
    Simplification: a log id is one path component. *)
Definition save_logs (folder : path) (fs : node lines) (log_id : string) (d : df) : list event :=
  (if path_exists fs folder then [] else [EMakedirs folder]) ++
  match df_rows d with
  | [] => []
  | _ => if path_exists fs (log_file folder log_id)
         then [EAppend (log_file folder log_id) (row_lines d)]
         else [ECreate (log_file folder log_id) (header_line d :: row_lines d)]
  end.

(** State of a run: the circus, the file system, the writes made so far. *)
Definition rstate := (world * node lines * list event)%type.

Definition do_save (folder : path) (st : rstate) (log_id : string) (d : df) : result unit * rstate :=
  let '(w, fs, tr) := st in
  let es := save_logs folder fs log_id d in
  let '(res, fs', done) := apply_events fs es in
  (res, (w, fs', tr ++ done)).

(** circus.py:180-181: for log_id, logs in story.execute().items() *)
Fixpoint save_all (folder : path) (st : rstate) (l : logs) : result unit * rstate :=
  match l with
  | [] => (Ok tt, st)
  | (log_id, d) :: l' =>
      match do_save folder st log_id d with
      | (Ok _, st') => save_all folder st' l'
      | (Err e, st') => (Err e, st')
      end
  end.

Definition run_story (folder : path) (st : rstate) (a : nat) : result unit * rstate :=
  let '(w, fs, tr) := st in
  match execute a w with
  | (Ok l, w') => save_all folder (w', fs, tr) l
  | (Err e, w') => (Err e, (w', fs, tr))
  end.

(** circus.py:179 for story in self.stories *)
Fixpoint run_stories (folder : path) (st : rstate) (stories : list nat) : result unit * rstate :=
  match stories with
  | [] => (Ok tt, st)
  | a :: l =>
      match run_story folder st a with
      | (Ok _, st') => run_stories folder st' l
      | (Err e, st') => (Err e, st')
      end
  end.

(** clock.py:47-56 *)
Definition increment_clock (w : world) : world :=
  let (c, gens) := clock_increment (w_clock w, w_tgens w) in set_tgens gens (set_clock c w).

(** circus.py:176-185, one step *)
Definition run_step (folder : path) (st : rstate) : result unit * rstate :=
  let '(w, _, _) := st in
  match run_stories folder st (seq 0 (length (w_stories w))) with
  | (Ok _, (w', fs', tr')) => (Ok tt, (increment_clock w', fs', tr'))
  | (Err e, st') => (Err e, st')
  end.

Fixpoint run_steps (n : nat) (folder : path) (st : rstate) : result unit * rstate :=
  match n with
  | 0 => (Ok tt, st)
  | S n' =>
      match run_step folder st with
      | (Ok _, st') => run_steps n' folder st'
      | (Err e, st') => (Err e, st')
      end
  end.

(** circus.py:150-185 run.  [range(n)] is empty for negative n.  The removal of
    an existing folder is not recorded among the events. *)
Definition run (duration : Z) (folder : path) (delete_existing_logs : bool)
    (w : world) (fs : node lines) : result unit * rstate :=
  match n_iterations (w_clock w) duration with
  | Err e => (Err e, (w, fs, []))
  | Ok n =>
      if path_exists fs folder then
        if delete_existing_logs then
          match ensure_non_existing_dir fs folder with
          | Err e => (Err e, (w, fs, []))
          | Ok fs' => run_steps (Z.to_nat n) folder (w, fs', [])
          end
        else (Err OSError, (w, fs, []))
      else run_steps (Z.to_nat n) folder (w, fs, [])
  end.
