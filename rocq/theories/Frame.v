(** Model of the pandas DataFrame/Series operations the operations of /repo use.
    A Series is a list of (label, value) pairs; a DataFrame lists its column
    names and its rows (label, cells).  Simplification: dtypes are not
    modelled. *)
From Verif Require Import Base BaseFacts.

Definition series := list (val * val).

Record df := mkDf { df_cols : list string; df_rows : list (val * list val) }.

(** df.index *)
Definition df_index (d : df) : list val := map fst (df_rows d).

(** df.shape[0] *)
Definition df_len (d : df) : nat := length (df_rows d).

Fixpoint find_col (c : string) (cols : list string) : option nat :=
  match cols with
  | [] => None
  | c' :: cols' => if keqb c c' then Some 0 else option_map S (find_col c cols')
  end.

(** Position of a column; an unknown column raises KeyError.  A name carried
    by several columns selects a DataFrame, not a Series: not modelled. *)
Definition col_pos (c : string) (cols : list string) : result nat :=
  match find_col c cols with
  | None => Err KeyError
  | Some i => if 1 <? length (filter (keqb c) cols) then Err Unmodelled else Ok i
  end.

(** df[c] *)
Definition get_col (d : df) (c : string) : result series :=
  let! i := col_pos c (df_cols d) in
  Ok (map (fun r => (fst r, nth i (snd r) VNA)) (df_rows d)).

(** df[[c1, c2, ...]] *)
Definition select_cols (d : df) (cs : list string) : result df :=
  let! is := mapr (fun c => col_pos c (df_cols d)) cs in
  Ok (mkDf cs (map (fun r => (fst r, map (fun i => nth i (snd r) VNA) is)) (df_rows d))).

(** df[mask]: rows whose mask is true *)
Definition mask_rows {A} (mask : list bool) (rows : list A) : list A :=
  map snd (filter fst (combine mask rows)).
Definition df_mask (d : df) (mask : list bool) : df :=
  mkDf (df_cols d) (mask_rows mask (df_rows d)).

(** Boolean column; anything else than True/False is not modelled (pandas
    raises, or applies [~] to integers). *)
Definition bool_of (v : val) : result bool :=
  match v with VBool b => Ok b | _ => Err Unmodelled end.
Definition bool_col (d : df) (c : string) : result (list bool) :=
  let! s := get_col d c in mapr (fun kv => bool_of (snd kv)) s.

(** Series.dropna() *)
Definition dropna (s : series) : series := filter (fun kv => negb (is_na (snd kv))) s.

Inductive join_kind := JLeft | JInner.

Definition suffixed (others : list string) (suffix : string) (c : string) : string :=
  if mem c others then (c ++ suffix)%string else c.

(** pd.merge(left, right, left_index=True, right_index=True, how=...) for
    indexes without duplicates: rows in the order of the left index; columns
    present on both sides get the suffixes _x and _y.  (pandas keeps the order
    of the left index for both joins when labels are unique.)  Duplicate
    labels, which give a cartesian product, are not modelled. *)
Definition merge_index (how : join_kind) (left right : df) : result df :=
  if negb (nodupb (df_index left)) || negb (nodupb (df_index right)) then Err Unmodelled
  else
    let width := length (df_cols right) in
    Ok (mkDf (map (suffixed (df_cols right) "_x") (df_cols left) ++
              map (suffixed (df_cols left) "_y") (df_cols right))
             (flat_map (fun l =>
                match dget (fst l) (df_rows right) with
                | Some cells => [(fst l, snd l ++ cells)]
                | None => match how with
                          | JLeft => [(fst l, snd l ++ repeat VNA width)]
                          | JInner => []
                          end
                end) (df_rows left))).

(** A one-column DataFrame from a Series. *)
Definition df_of_series (c : string) (s : series) : df :=
  mkDf [c] (map (fun kv => (fst kv, [snd kv])) s).

(** Cells of a row reordered to other columns; absent columns give NaN. *)
Definition project (cols : list string) (cells : list val) (target : list string) : list val :=
  map (fun c => match find_col c cols with Some i => nth i cells VNA | None => VNA end) target.

(** util_functions.py:111-112 df_concat: pd.concat([d1, d2], ignore_index=True).
    Columns: those of d1, then the new ones of d2.  Simplification: column
    names are distinct within each frame. *)
Definition df_concat (d1 d2 : df) : df :=
  let cols := df_cols d1 ++ filter (fun c => negb (mem c (df_cols d1))) (df_cols d2) in
  let rows := map (fun r => project (df_cols d1) (snd r) cols) (df_rows d1) ++
              map (fun r => project (df_cols d2) (snd r) cols) (df_rows d2) in
  mkDf cols (combine (map vnat (seq 0 (length rows))) rows).

(** list-valued cells, numbers *)
Definition as_list (v : val) : result (list val) :=
  match v with VList l => Ok l | _ => Err Unmodelled end.

(** a cell as an integer; others are not modelled *)
Definition as_int (v : val) : result Z :=
  match v with
  | VNum q => match Qden q with 1%positive => Ok (Qnum q) | _ => Err Unmodelled end
  | _ => Err Unmodelled
  end.

Definition as_Q (v : val) : result Q :=
  match v with VNum q => Ok (this q) | _ => Err Unmodelled end.
