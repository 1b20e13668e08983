(** Model of /repo/trumania/core/util_functions.py:228-243 load_all_logs. *)
From Verif Require Import Base BaseFacts Frame World Ops Fs Circus Persist.

(** pandas.read_csv(path, index_col=None) on a log file: the first line names the columns, the type
    of each column is inferred from its cells, the rows are numbered.  An empty file is refused.
    Simplifications: as in Circus.v and Persist.v a file is its lines, a line its cells, whose texts are
    those of to_csv.  Lines of another length than the header, and repeated or empty column names
    (which pandas renames), are not modelled. *)
Definition plain_header (names : list string) : bool := nodupb names && negb (mem ""%string names).
Definition read_columns (fmt : text_format) (width : nat) (rows : lines) : list (list val) :=
  map (fun j => read_column fmt (map (fun r => show fmt (nth j r VNA)) rows)) (seq 0 width).
Definition read_frame (fmt : text_format) (content : lines) : result df :=
  match content with
  | [] => Err ValueError
  | header :: rows =>
      let names := map (show fmt) header in
      if plain_header names && forallb (fun r => Nat.eqb (length r) (length header)) rows then
        let cols := read_columns fmt (length header) rows in
        Ok (mkDf names (map (fun i => (vnat i, map (fun c => nth i c VNA) cols)) (seq 0 (length rows))))
      else Err Unmodelled
  end.

(** util_functions.py:236-241, the loop over the files *)
Fixpoint load_files (fmt : text_format) (fs : node lines) (folder : path) (names : list string) (acc : logs) : result logs :=
  match names with
  | [] => Ok acc
  | name :: names' =>
      let! content := read_file fs (folder ++ [name]) in
      let! d := read_frame fmt content in
      load_files fmt fs folder names' (dset (drop4 name) d acc)
  end.

(** util_functions.py:228-243 load_all_logs; [ls] is the order in which os.listdir gives the names. *)
Definition load_all_logs (fmt : text_format) (ls : list string -> list string) (fs : node lines) (folder : path) : result logs :=
  let! names := listdir fs folder in
  load_files fmt fs folder (ls names) [].
