(** Model of the operations: /repo/trumania/core/operations.py, the "ops" classes
    of clock.py, random_generators.py, relationship.py, attribute.py,
    population.py and story.py, and Story.execute. *)
From Verif Require Import Base BaseFacts Rng Utils Relationship Frame Gens Clock Attribute World Story.

Definition logs := dict string df.

(** Frame with the index of [d] and one column *)
Definition column (d : df) (name : string) (vs : list val) : result df :=
  if length vs =? df_len d
  then Ok (mkDf [name] (combine (df_index d) (map (fun v => [v]) vs)))
  else Err ValueError.

(** operations.py:174-178 AddColumns.transform *)
Definition add_columns (how : join_kind) (d output : df) : result df := merge_index how d output.

(** ** FieldLogger, operations.py:107-129 *)

Definition same_length (n : nat) (ls : list (list val)) : bool :=
  forallb (fun l => length l =? n) ls.

(** operations.py:112-119 explo: the columns of the row that are not exploded,
    then the exploded ones.  An empty first list yields a frame without rows;
    with a second, non-empty one, what pandas does is not modelled. *)
Definition explo (cols exploded : list string) (row : val * list val) : result (list (val * list val)) :=
  let! lists := mapr (fun c => let! i := col_pos c cols in as_list (nth i (snd row) VNA)) exploded in
  let n := length (hd [] lists) in
  let base := project cols (snd row) (filter (fun c => negb (mem c exploded)) cols) in
  if same_length n lists
  then Ok (map (fun k => (fst row, base ++ map (fun l => nth k l VNA) lists)) (seq 0 n))
  else match n with
       | 0 => Err Unmodelled
       | _ => Err ValueError
       end.

(** operations.py:110-122: pd.concat refuses an empty sequence; when every frame
    is without rows only the exploded columns exist. *)
Definition explode (d : df) (exploded : list string) : result df :=
  if negb (nodupb (df_cols d)) || negb (nodupb exploded) then Err Unmodelled
  else
    match df_rows d with
    | [] => Err ValueError
    | rows =>
        let! pieces := mapr (explo (df_cols d) exploded) rows in
        match concat pieces with
        | [] => Ok (mkDf exploded [])
        | rows' => Ok (mkDf (filter (fun c => negb (mem c exploded)) (df_cols d) ++ exploded) rows')
        end
    end.

Definition emit_log (cols exploded : list string) (d : df) : result df :=
  let! logged := match exploded with [] => Ok d | _ => explode d exploded end in
  match cols with [] => Ok logged | _ => select_cols logged cols end.

(** ** DropRow, operations.py:189-190.  On an empty frame the result is that
    frame (the condition column has boolean dtype). *)
Definition drop_rows (d : df) (condition : string) : result df :=
  let! bs := bool_col d condition in
  Ok (df_mask d (map negb bs)).

(** ** Apply, operations.py:236-250 *)
Fixpoint rename_first (cols named_as : list string) : list string :=
  match cols, named_as with
  | _ :: cols', n :: named' => n :: rename_first cols' named'
  | _, _ => cols
  end.
Definition apply_output (source_fields named_as : list string) (f : df -> result df) (d : df) : result df :=
  let! src := select_cols d source_fields in
  let! out := f src in
  if negb (nodupb (df_cols out)) then Err Unmodelled
  else Ok (mkDf (rename_first (df_cols out) named_as) (df_rows out)).

(** ** Relationship operations *)

(** names used internally by the relationship's frames are not modelled as targets *)
Definition reserved (named_as : string) : bool :=
  mem named_as ["from"; "idx"; "req_idx"; "rel_idx"]%string.

Definition count_of (v : val) : result nat :=
  let! z := as_int v in if (z <? 0)%Z then Err Unmodelled else Ok (Z.to_nat z).

(** relationship.py:591-604 SelectAll.transform: inner merge of a column with the
    index of the selection; pandas yields the rows grouped by value of that
    column, in order of first appearance.  (The story data index has no name.) *)
Definition select_all (r : relationship) (from named_as : string) (d : df) : result df :=
  if reserved named_as then Err Unmodelled
  else if negb (nodupb (df_index d)) then Err Unmodelled
  else
    let! i := col_pos from (df_cols d) in
    let froms := uniq (map (fun row => nth i (snd row) VNA) (df_rows d)) in
    let selected := select_all_horizontal r froms in
    Ok (mkDf (map (suffixed [named_as] "_x") (df_cols d) ++ [suffixed (df_cols d) "_y" named_as])
         (flat_map (fun f =>
            match dget f selected with
            | Some tos => map (fun row => (fst row, snd row ++ [VList tos]))
                              (filter (fun row => keqb (nth i (snd row) VNA) f) (df_rows d))
            | None => []
            end) froms)).

(** ** Lookup, population.py:276-330 *)

Fixpoint cells_for (t : series) (ids : list val) : result (list val) :=
  match ids with
  | [] => Ok []
  | i :: ids' => match dget i t with
                 | None => Err KeyError
                 | Some v => let! vs := cells_for t ids' in Ok (v :: vs)
                 end
  end.

(** One looked up column: scalars (284-306) or lists (308-330); a mix of both is
    not modelled. *)
Definition lookup_column (t : series) (cells : list val) : result (list val) :=
  match cells with
  | VList _ :: _ =>
      let! lists := mapr as_list cells in
      mapr (fun ids => let! vs := cells_for t ids in Ok (VList vs)) lists
  | _ =>
      if existsb (fun c => match c with VList _ => true | _ => false end) cells then Err Unmodelled
      else cells_for t cells
  end.

(** Columns are added one by one; an attribute table with duplicate labels, or
    target names that are not new and distinct, are not modelled. *)
Fixpoint lookup_columns (p : nat) (cells : list val) (select : dict string string)
  : M (list (list val)) :=
  match select with
  | [] => ret []
  | (attribute, _) :: select' =>
      let* t := get_attribute_values p attribute None in
      if negb (nodupb (dkeys t)) then raise Unmodelled
      else
        let* c := lift (lookup_column t cells) in
        let* cs := lookup_columns p cells select' in
        ret (c :: cs)
  end.

Definition rows_of (index : list val) (columns : list (list val)) : list (val * list val) :=
  map (fun '(k, i) => (i, map (fun c => nth k c VNA) columns)) (combine (seq 0 (length index)) index).

Definition lookup_output (p : nat) (id_field : string) (select : dict string string) (d : df) : M df :=
  if negb (nodupb (id_field :: map snd select)) then raise Unmodelled
  else match df_rows d with
  | [] => ret (mkDf (map snd select) [])
  | _ =>
      let* ids := lift (get_col d id_field) in
      let* cs := lookup_columns p (map snd ids) select in
      ret (mkDf (map snd select) (rows_of (df_index d) cs))
  end.

(** ** Calls on the relationship at address [r] *)
Definition call_select_one (r : nat) (froms : series) (pop discard one_to_one : bool)
    (weight : option (dict val Q)) : M (list (val * val * val)) :=
  let* rel := deref w_rels r in
  let* (rows, rel') := lift (select_one rel (Some froms) pop discard one_to_one weight) in
  let* _ := put_rel r rel' in
  ret rows.

Definition call_select_many (r : nat) (reqs : list req) (pop discard : bool)
  : M (list (val * list val)) :=
  let* rel := deref w_rels r in
  let* (rows, rel') := lift (select_many rel reqs pop discard) in
  let* _ := put_rel r rel' in
  ret rows.

(** ** StoryOps *)

(** story.py:262-275 the ids ForceActNext passes on: cells that are not NaN on rows
    where the condition holds *)
Definition force_ids (d : df) (id_field : string) (condition : option string) : result (list val) :=
  let! cond := match condition with
               | None => Ok (map (fun _ => true) (df_rows d))
               | Some c => bool_col d c
               end in
  let! ids := get_col (df_mask d cond) id_field in
  Ok (map snd (dropna ids)).

Definition state_of_cell (v : val) : result string :=
  match v with VStr s => Ok s | _ => Err Unmodelled end.

(** story.py:315-332 the members and states of TransitToState *)
Definition transit_pairs (d : df) (id_field : string) (state : string + string)
    (condition : option string) : result (list (val * string)) :=
  let! filtered := match condition with
                   | None => Ok d
                   | Some c => let! bs := bool_col d c in Ok (df_mask d bs)
                   end in
  let! ids := get_col filtered id_field in
  match state with
  | inr st => Ok (map (fun kv => (snd kv, st)) (dropna ids))
  | inl state_field =>
      let! states := get_col filtered state_field in
      let pairs := filter (fun p => negb (is_na (fst p)) && negb (is_na (snd p)))
                          (combine (map snd ids) (map snd states)) in
      mapr (fun p => let! st := state_of_cell (snd p) in Ok (fst p, st)) pairs
  end.

(** story.py:229-253 _MaybeBackToDefault.side_effect: members of the story data in
    another state than "default" go back with their probability. *)
Definition back_to_default (a judge : nat) (d : df) : M unit :=
  let* s := deref w_stories a in
  if negb (known s (df_index d)) then raise KeyError
  else
    let non_default := filter (fun i => match state_of s i with
                                        | Some st => negb (keqb st "default"%string)
                                        | None => false
                                        end) (df_index d) in
    match non_default with
    | [] => ret tt
    | _ =>
        let* back_prob := lift (get_param s BackProb non_default) in
        let* cond :=
          if forallb (fun p => Qeq_bool (snd p) 0) back_prob
          then ret (map (fun _ => false) back_prob)
          else if forallb (fun p => Qeq_bool (snd p) 1) back_prob
          then ret (map (fun _ => true) back_prob)
          else
            let* baseline := generate judge (Z.of_nat (length back_prob)) in
            let* us := lift (mapr as_Q baseline) in
            ret (map (fun '(p, u) => Qltb u (snd p)) (combine back_prob us)) in
        let member_ids := map fst (mask_rows cond back_prob) in
        story_transit a member_ids (map (fun _ => "default"%string) member_ids)
    end.

(** ** Running an operation: Operation.__call__, operations.py:33-38 *)

Definition transformed (r : M df) : M (df * logs) := let* d := r in ret (d, []).
Definition side_effect (d : df) (r : M unit) : M (df * logs) := let* _ := r in ret (d, []).
Definition if_rows (d : df) (r : M unit) : M unit := match df_rows d with [] => ret tt | _ => r end.

(** operations.py:55-72 Chain: reduce with _execute_operation *)
Section Chain.
  Context (run : op -> df -> M (df * logs)).
  Fixpoint run_list (ops : list op) (d : df) (prev_logs : logs) : M (df * logs) :=
    match ops with
    | [] => ret (d, prev_logs)
    | o :: ops' =>
        let* (output, supp_logs) := run o d in
        let* all_logs := lift (merge_dicts [prev_logs; supp_logs] (Some df_concat)) in
        run_list ops' output all_logs
    end.
End Chain.

Fixpoint run_op (o : op) (d : df) {struct o} : M (df * logs) :=
  match o with
  | OpFieldLogger log_id cols exploded =>
      let* l := lift (emit_log cols exploded d) in ret (d, [(log_id, l)])
  | OpDropRow condition => transformed (lift (drop_rows d condition))
  | OpApply source_fields named_as f =>
      transformed (let* out := lift (apply_output source_fields named_as f d) in
                   lift (add_columns JLeft d out))
  | OpTimestamp named_as random fmt =>
      transformed (let* c := get w_clock in
                   let* (dates, c') := lift (get_timestamp c (df_len d) random) in
                   let* _ := modify (set_clock c') in
                   let* out := lift (column d named_as (map fmt dates)) in
                   lift (add_columns JLeft d out))
  | OpGenerate g named_as quantity =>
      transformed (let* qties := lift (match quantity with
                                       | None => Ok None
                                       | Some q => let! s := get_col d q in Ok (Some (map snd s))
                                       end) in
                   let* gens := get w_gens in
                   let* (values, gens') := lift (random_values gens g (df_len d) qties) in
                   let* _ := modify (set_gens gens') in
                   let* out := lift (column d named_as values) in
                   lift (add_columns JLeft d out))
  | OpGenerateDep g named_as observed =>
      transformed (let* obs := lift (get_col d observed) in
                   let* dg := deref w_dgens g in
                   let* gens := get w_gens in
                   let* (values, dg', gens') := lift (dgen_generate gens dg (map snd obs)) in
                   let* _ := modify (set_gens gens') in
                   let* dgens := get w_dgens in
                   let* _ := modify (set_dgens (set_nth g dg' dgens)) in
                   let* out := lift (column d named_as values) in
                   lift (add_columns JLeft d out))
  | OpNeighbours r from named_as =>
      transformed (let* froms := lift (get_col d from) in
                   let* rel := deref w_rels r in
                   let* out := lift (column d named_as
                                      (map (fun kv => vnat (neighbourhood_size rel (snd kv))) froms)) in
                   lift (add_columns JLeft d out))
  | OpSelectOne r from named_as one_to_one pop discard weight =>
      transformed (let* froms := lift (get_col d from) in
                   if reserved named_as then raise Unmodelled
                   else
                     let* rows := call_select_one r froms pop discard one_to_one weight in
                     lift (add_columns JInner d
                             (mkDf [named_as] (map (fun '(i, _, to) => (i, [to])) rows))))
  | OpSelectAll r from named_as =>
      transformed (let* rel := deref w_rels r in lift (select_all rel from named_as d))
  | OpSelectMany r from named_as quantity pop discard =>
      transformed (let* froms := lift (get_col d from) in
                   let* qties := lift (get_col d quantity) in
                   let* ns := lift (mapr (fun kv => count_of (snd kv)) qties) in
                   if reserved named_as then raise Unmodelled
                   else
                     let* rows := call_select_many r
                                    (map (fun '(kv, n) => mkReq (fst kv) (snd kv) n) (combine froms ns))
                                    pop discard in
                     lift (add_columns JInner d
                             (mkDf [named_as] (map (fun '(i, tos) => (i, [VList tos])) rows))))
  | OpRelAdd r from item =>
      side_effect d (if_rows d (
        let* froms := lift (get_col d from) in
        let* items := lift (get_col d item) in
        rel_add r (map snd froms) (map snd items)))
  | OpRelAddGrouped r from items =>
      side_effect d (if_rows d (
        let* froms := lift (get_col d from) in
        let* cells := lift (get_col d items) in
        let* lists := lift (mapr (fun kv => as_list (snd kv)) cells) in
        rel_add_grouped r (map snd froms) lists))
  | OpRelRemove r from item =>
      (* the class Relationship has no method "remove" *)
      side_effect d (if_rows d (raise AttributeError))
  | OpAttrUpdate a id_field copy_from =>
      side_effect d (if_rows d (
        let* vs := lift (get_col d copy_from) in
        let* ids := lift (get_col d id_field) in
        update_attr a (combine (map snd ids) (map snd vs))))
  | OpAttrAdd a id_field added subtract =>
      side_effect d (if_rows d (
        let* vs := lift (get_col d added) in
        let* values := lift (if subtract
                             then mapr (fun kv => match snd kv with
                                                  | VNum q => Ok (VNum (- q)%Qc)
                                                  | VNA => Ok VNA
                                                  | _ => Err Unmodelled
                                                  end) vs
                             else Ok (map snd vs)) in
        let* ids := lift (get_col d id_field) in
        let* t := deref w_attrs a in
        let* t' := lift (attr_add t (map snd ids) values) in
        put_attr a t'))
  | OpLookup p id_field select =>
      transformed (let* out := lookup_output p id_field select d in
                   lift (add_columns JLeft d out))
  | OpPopUpdate p id_field copy =>
      side_effect d (
        let* cols := lift (mapr (fun af => get_col d (snd af)) copy) in
        let* ids := lift (get_col d id_field) in
        pop_update p (mkDf (map fst copy) (rows_of (map snd ids) (map (map snd) cols))))
  | OpForce a id_field condition =>
      side_effect d (if_rows d (
        let* ids := lift (force_ids d id_field condition) in
        story_force a ids))
  | OpReset a id_field =>
      side_effect d (
        match id_field with
        | None => story_reset a (Some (df_index d))
        | Some f => let* ids := lift (get_col d f) in
                    story_reset a (Some (uniq (map snd (dropna ids))))
        end)
  | OpTransit a id_field state condition =>
      side_effect d (
        let* pairs := lift (transit_pairs d id_field state condition) in
        story_transit a (map fst pairs) (map snd pairs))
  | OpBack a judge => side_effect d (back_to_default a judge d)
  | OpChain ops => run_list run_op ops d []
  end.

(** operations.py:81-104 FieldLogger.__init__ (a single column name is a one-element list
    here).  The exploded columns are appended to the caller's own list of columns: a list
    given to two loggers grows with each; the model gives each logger its own copy. *)
Definition field_logger (log_id : string) (cols : option (list string)) (exploded : list string) : op :=
  OpFieldLogger log_id (match cols with None => [] | Some l => l end ++ exploded) exploded.

(** A Chain of the operations [ops], called on [d]. *)
Definition run_chain (ops : list op) (d : df) : M (df * logs) := run_list run_op ops d [].

(** ** Story.execute, story.py:181-216 *)

(** story.py:181-187 init_story_data *)
Definition init_story_data (field : string) (active : list val) : df :=
  mkDf [field] (map (fun i => (i, [i])) active).

Definition execute (a : nat) : M logs :=
  let* s := deref w_stories a in
  let* _ := put_story a (with_forced s []) in
  let (active, inactive) := active_inactive_ids s in
  let* all_logs :=
    match active with
    | [] => ret []
    | _ =>
        let* (_, l) := run_chain (st_ops s) (init_story_data (st_field s) active) in
        let* _ := if st_auto s then story_reset a (Some active) else story_tick a active in
        ret l
    end in
  let* _ := story_tick a inactive in
  ret all_logs.
