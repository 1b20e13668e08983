(** Specification vocabulary for operations and story data. *)
From Verif Require Import Base Rng Relationship Frame Gens Clock Attribute World.

(** [l] is [m] without some of its elements, in the same order. *)
Inductive sublist {A} : list A -> list A -> Prop :=
| sub_nil : sublist [] []
| sub_skip x l m : sublist l m -> sublist l (x :: m)
| sub_keep x l m : sublist l m -> sublist (x :: l) (x :: m).

(** The cell of a row under a column name (VNA if there is no such column). *)
Fixpoint cell (cols : list string) (cells : list val) (c : string) : val :=
  match cols, cells with
  | c' :: cols', v :: cells' => if String.eqb c c' then v else cell cols' cells' c
  | _, _ => VNA
  end.

(** Every row has one cell per column; column names are distinct. *)
Definition rectangular (d : df) : Prop :=
  NoDup (df_cols d) /\ forall row, In row (df_rows d) -> length (snd row) = length (df_cols d).

(** [d'] has the columns of [d] followed by [new]; its rows are rows of [d], in
    order, each extended with as many cells; [complete]: no row is missing. *)
Definition extended (complete : bool) (d d' : df) (new : list string) : Prop :=
  df_cols d' = df_cols d ++ new /\
  exists kept, sublist kept (df_rows d) /\ (complete = true -> kept = df_rows d) /\
    Forall2 (fun row row' => fst row' = fst row /\
               exists extra, snd row' = snd row ++ extra /\ length extra = length new)
            kept (df_rows d').

(** Operations that only act on the world. *)
Definition only_side_effect (o : op) : bool :=
  match o with
  | OpRelAdd _ _ _ | OpRelAddGrouped _ _ _ | OpRelRemove _ _ _ | OpAttrUpdate _ _ _ | OpAttrAdd _ _ _ _
  | OpPopUpdate _ _ _ | OpForce _ _ _ | OpReset _ _ | OpTransit _ _ _ _ | OpBack _ _ => true
  | _ => false
  end.

(** Operations that log under [id]. *)
Fixpoint logs_to (id : string) (o : op) : bool :=
  match o with
  | OpFieldLogger log_id _ _ => String.eqb id log_id
  | OpChain ops => existsb (logs_to id) ops
  | _ => false
  end.

(** Does an operation select all related items? *)
Fixpoint selects_all (o : op) : bool :=
  match o with
  | OpSelectAll _ _ _ => true
  | OpChain ops => existsb selects_all ops
  | _ => false
  end.

Definition list_of (v : val) : list val := match v with VList l => l | _ => [] end.

(** [o] is an operation meant to add the columns [new]. *)
Definition target_columns (o : op) (new : list string) : Prop :=
  match o with
  | OpTimestamp n _ _ => new = [n]
  | OpGenerate _ n _ => new = [n]
  | OpGenerateDep _ n _ => new = [n]
  | OpNeighbours _ _ n => new = [n]
  | OpSelectOne _ _ n _ _ _ _ => new = [n]
  | OpSelectMany _ _ n _ _ _ => new = [n]
  | OpLookup _ _ select => new = map snd select
  | _ => False
  end.

(** Operations that never discard a row. *)
Definition keeps_every_row (o : op) : bool :=
  match o with
  | OpSelectOne _ _ _ _ _ _ _ | OpSelectMany _ _ _ _ _ _ => false
  | _ => true
  end.

(** [d'] is [d] with one more column [name], holding the values [vs]. *)
Definition adds_column (d d' : df) (name : string) (vs : list val) : Prop :=
  df_cols d' = df_cols d ++ [name] /\ length vs = length (df_rows d) /\
  df_rows d' = map (fun rv => (fst (fst rv), snd (fst rv) ++ [snd rv])) (combine (df_rows d) vs).

(** What a log line shows of column [c] of a row of the story data: the cell, or
    for an exploded column the [k]-th element of the list in that cell. *)
Definition shown (cols exploded : list string) (row : val * list val) (k : nat) (c : string) : val :=
  if mem c exploded then nth k (list_of (cell cols (snd row) c)) VNA else cell cols (snd row) c.

(** The table of attribute [name] of population [p]. *)
Definition attribute_table (w : world) (p : nat) (name : string) (t : series) : Prop :=
  exists po a, nth_error (w_pops w) p = Some po /\ dget name (p_attrs po) = Some a /\
               nth_error (w_attrs w) a = Some t.

(** What looking up the cell [c] in the table [t] gives: the value of that
    member, or the list of values if the cell is a list of members. *)
Definition looked_up (t : series) (c v : val) : Prop :=
  match c with
  | VList ids => exists vs, v = VList vs /\ Forall2 (fun i x => dget i t = Some x) ids vs
  | _ => dget c t = Some v
  end.

(** Operations that may remove rows of the story data. *)
Fixpoint drops_rows (o : op) : bool :=
  match o with
  | OpDropRow _ | OpSelectOne _ _ _ _ _ _ _ | OpSelectMany _ _ _ _ _ _ | OpSelectAll _ _ _ => true
  | OpChain ops => existsb drops_rows ops
  | _ => false
  end.

(** A row of the story data [d] names [i]: by its cell under column [f], or by its index
    when no column is given. *)
Definition names_row (f : option string) (d : df) (i : val) : Prop :=
  exists row, In row (df_rows d) /\
    match f with None => fst row = i | Some c => cell (df_cols d) (snd row) c = i /\ i <> VNA end.

(** The column [n] of a frame, top to bottom. *)
Definition column_of (d : df) (n : string) : list val := map (fun row => cell (df_cols d) (snd row) n) (df_rows d).

(** The log [z] holds the rows of the log [x] followed by those of the log [y] (either
    may be missing); missing columns hold NaN. *)
Definition appended (x y z : option df) : Prop :=
  match x, y with
  | None, _ => z = y
  | _, None => z = x
  | Some a, Some b => exists c, z = Some c /\
      (exists new, df_cols c = df_cols a ++ new /\ forall n, In n new <-> In n (df_cols b) /\ ~ In n (df_cols a)) /\
      length (df_rows c) = length (df_rows a) + length (df_rows b) /\
      forall n, column_of c n = column_of a n ++ column_of b n
  end.

(** [d'] is [d] with one more column [name]: the rows [kept] of [d], in order, each with
    one more cell, those of [vs]. *)
Definition adds_cells (d d' : df) (name : string) (kept : list (val * list val)) (vs : list val) : Prop :=
  df_cols d' = df_cols d ++ [name] /\ sublist kept (df_rows d) /\ length vs = length kept /\
  df_rows d' = map (fun rv => (fst (fst rv), snd (fst rv) ++ [snd rv])) (combine kept vs).

(** The number of log lines of a row: the length of its first exploded list. *)
Definition log_lines (cols exploded : list string) (row : val * list val) : nat :=
  length (list_of (cell cols (snd row) (hd EmptyString exploded))).

(** The exploded lists of each row have the same length. *)
Definition same_lists (d : df) (exploded : list string) : Prop :=
  forall row c, In row (df_rows d) -> In c exploded ->
    exists l, cell (df_cols d) (snd row) c = VList l /\ length l = log_lines (df_cols d) exploded row.
