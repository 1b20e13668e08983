(** Model of /repo/trumania/core/attribute.py: the table of an attribute is a
    Series (label, value), in index order.  (Construction from a generator or a
    relationship is in World.v, the operations AttributeOps in Ops.v,
    persistence in Persist.v.) *)
From Verif Require Import Base BaseFacts Relationship Frame.

(** [remove_one x l]: [l] without the first occurrence of [x]. *)
Fixpoint remove_one (x : val) (l : list val) : list val :=
  match l with
  | [] => []
  | y :: l' => if keqb x y then l' else y :: remove_one x l'
  end.

(** Elements of [b] in excess of those of [a], as multisets. *)
Definition multi_minus (b a : list val) : list val :=
  fold_left (fun acc x => remove_one x acc) a b.

(** pandas Index.union (written [|] in the code): one of the operands when the
    other one is empty or equal, otherwise the sorted union (with the larger
    multiplicity of each label). *)
Definition index_union (a b : list val) : list val :=
  if list_eqb a b then a
  else match a, b with
       | _, [] => a
       | [], _ => b
       | _, _ => isort val_leb (a ++ multi_minus b a)
       end.

(** attribute.py:43 pd.DataFrame({"value": init_values}, index=population.ids):
    a scalar is repeated, a list must have the length of the index.  (A Series
    is first turned into a list, 38-41.) *)
Inductive init_vals := VScalar (v : val) | VValues (vs : list val).
Definition table_of (ids : list val) (vs : init_vals) : result series :=
  match vs with
  | VScalar v => Ok (map (fun i => (i, v)) ids)
  | VValues vs => if length vs =? length ids then Ok (combine ids vs) else Err ValueError
  end.

(** table.loc[ids]: every row of each label in turn; a label without any row
    raises KeyError. *)
Definition series_loc (t : series) (ids : list val) : result series :=
  if forallb (fun i => mem i (dkeys t)) ids
  then Ok (flat_map (fun i => filter (fun kv => keqb (fst kv) i) t) ids)
  else Err KeyError.

(** attribute.py:54-62 get_values *)
Definition attr_get_values (t : series) (ids : option (list val)) : result series :=
  match ids with None => Ok t | Some ids => series_loc t ids end.

(** table.reindex(labels), for a table without duplicate label *)
Definition series_reindex (t : series) (labels : list val) : series :=
  map (fun k => (k, match dget k t with Some v => v | None => VNA end)) labels.

(** attribute.py:64-70 update.  First the table is extended to the union of the
    indexes, then the values are assigned.  With a repeated label in [s] the
    extended table has that label several times, .loc then designates more cells
    than there are values and pandas raises ValueError (the extended table
    remains).  A table that already has duplicate labels is not modelled. *)
Definition attr_update (t s : series) : result unit * series :=
  if negb (nodupb (dkeys t)) then (Err Unmodelled, t)
  else
    let t' := series_reindex t (index_union (dkeys t) (dkeys s)) in
    if nodupb (dkeys s)
    then (Ok tt, map (fun kv => (fst kv, match dget (fst kv) s with Some v => v | None => snd kv end)) t')
    else (Err ValueError, t').

(** Numeric addition with NaN; other cells are not modelled. *)
Definition val_add (a b : val) : result val :=
  match a, b with
  | VNum x, VNum y => Ok (VNum (x + y)%Qc)
  | VNA, VNum _ | VNum _, VNA | VNA, VNA => Ok VNA
  | _, _ => Err Unmodelled
  end.

(** groupby(...).agg(sum) of numbers: NaN is skipped *)
Fixpoint val_sum (l : list val) : result Qc :=
  match l with
  | [] => Ok (Q2Qc 0)
  | VNum x :: l' => let! s := val_sum l' in Ok (x + s)%Qc
  | VNA :: l' => val_sum l'
  | _ :: _ => Err Unmodelled
  end.

(** attribute.py:80 pd.Series(added_values, index=ids).groupby(level=0).agg(sum):
    sorted labels, NaN labels dropped. *)
Definition group_sums (ids added : list val) : result (list (val * Qc)) :=
  mapr (fun i => let! s := val_sum (map snd (filter (fun kv => keqb (fst kv) i) (combine ids added))) in
                 Ok (i, s))
       (isort val_leb (uniq (filter (fun i => negb (is_na i)) ids))).

(** attribute.py:72-82 add *)
Definition attr_add (t : series) (ids added : list val) : result series :=
  if negb (length ids =? length added) then Err AssertionError
  else if negb (nodupb (dkeys t)) then Err Unmodelled
  else
    let! to_add := group_sums ids added in
    if negb (forallb (fun i => mem i (dkeys t)) (dkeys to_add)) then Err KeyError
    else mapr (fun kv => match dget (fst kv) to_add with
                         | Some s => let! v := val_add (snd kv) (VNum s) in Ok (fst kv, v)
                         | None => Ok kv
                         end) t.

(** attribute.py:84-88 transform_inplace, for a function *)
Definition attr_transform (t : series) (f : val -> result val) : result series :=
  mapr (fun kv => let! v := f (snd kv) in Ok (fst kv, v)) t.
