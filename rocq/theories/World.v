(** The state of a circus: heaps of attributes, relationships, generators,
    timer generators, populations and stories, referred to by address, as
    Python objects refer to each other; the operations of a story as data; and
    the model of /repo/trumania/core/population.py (operations: see Ops.v). *)
From Verif Require Import Base BaseFacts Rng Utils Relationship Frame Gens Clock Attribute.

(** ** Operations, as built by the constructors of the library.  Numbers are
    addresses in the world. *)
Inductive op :=
| OpFieldLogger (log_id : string) (cols exploded : list string)
    (** operations.py:81-105; [cols] is self.cols, which includes [exploded] *)
| OpDropRow (condition : string)                              (* operations.py:181-190 *)
| OpApply (source_fields named_as : list string) (f : df -> result df)
    (** operations.py:193-250; [f] maps the selected columns to a frame; the
        f_args="series" case is an [f] giving one column *)
| OpTimestamp (named_as : string) (random : bool) (fmt : Z -> val)  (* clock.py:103-124 *)
| OpGenerate (generator : nat) (named_as : string) (quantity : option string)
    (** random_generators.py:108-140 *)
| OpGenerateDep (generator : nat) (named_as observed : string)
    (** random_generators.py:438-470 *)
| OpNeighbours (rel : nat) (from named_as : string)           (* relationship.py:504-522 *)
| OpSelectOne (rel : nat) (from named_as : string) (one_to_one pop discard : bool)
              (weight : option (dict val Q))                  (* relationship.py:524-583 *)
| OpSelectAll (rel : nat) (from named_as : string)            (* relationship.py:585-611 *)
| OpSelectMany (rel : nat) (from named_as quantity : string) (pop discard : bool)
    (** relationship.py:613-644 *)
| OpRelAdd (rel : nat) (from item : string)                   (* relationship.py:646-659 *)
| OpRelAddGrouped (rel : nat) (from items : string)           (* relationship.py:661-680 *)
| OpRelRemove (rel : nat) (from item : string)                (* relationship.py:682-695 *)
| OpAttrUpdate (attr : nat) (id_field copy_from : string)     (* attribute.py:118-142 *)
| OpAttrAdd (attr : nat) (id_field added : string) (subtract : bool)  (* attribute.py:144-167 *)
| OpLookup (pop : nat) (id_field : string) (select : dict string string)  (* population.py:269-348 *)
| OpPopUpdate (pop : nat) (id_field : string) (copy : dict string string) (* population.py:350-381 *)
| OpForce (story : nat) (id_field : string) (condition : option string)   (* story.py:256-286 *)
| OpReset (story : nat) (id_field : option string)            (* story.py:288-305 *)
| OpTransit (story : nat) (id_field : string) (state : string + string) (condition : option string)
    (** story.py:307-345; [inl] is state_field, [inr] is state *)
| OpBack (story : nat) (judge : nat)                          (* story.py:218-253 *)
| OpChain (ops : list op).                                    (* operations.py:41-72 *)

(** ** Objects *)

(** population.py:14-55; attributes and relationships by name *)
Record pop := mkPop {
  p_ids : list val;
  p_size : Z;
  p_attrs : dict string nat;
  p_rels : dict string nat
}.

(** story.py:11-78.  [st_params] lists, for each member, its (activity,
    back_to_default_probability) in each state; [st_timer] is the table timer:
    member -> (state, remaining), None being NaN. *)
Record story := mkStory {
  st_name : string;
  st_pop : nat;
  st_field : string;
  st_tgen : nat;
  st_auto : bool;
  st_forced : list val;
  st_states : list string;
  st_params : dict val (dict string (Q * Q));
  st_timer : list (val * (string * option Z));
  st_ops : list op
}.

Record world := mkWorld {
  w_prng : prng;
  w_seeder : rng;
  w_clock : clock;
  w_attrs : list series;
  w_rels : list relationship;
  w_gens : list gen;
  w_dgens : list dgen;
  w_tgens : list tgen;
  w_pops : list pop;
  w_stories : list story;
  w_pop_names : dict string nat;
  w_gen_names : dict string nat
}.

Definition set_seeder (x : rng) (w : world) : world :=
  mkWorld (w_prng w) x (w_clock w) (w_attrs w) (w_rels w) (w_gens w) (w_dgens w) (w_tgens w)
          (w_pops w) (w_stories w) (w_pop_names w) (w_gen_names w).
Definition set_clock (x : clock) (w : world) : world :=
  mkWorld (w_prng w) (w_seeder w) x (w_attrs w) (w_rels w) (w_gens w) (w_dgens w) (w_tgens w)
          (w_pops w) (w_stories w) (w_pop_names w) (w_gen_names w).
Definition set_attrs (x : list series) (w : world) : world :=
  mkWorld (w_prng w) (w_seeder w) (w_clock w) x (w_rels w) (w_gens w) (w_dgens w) (w_tgens w)
          (w_pops w) (w_stories w) (w_pop_names w) (w_gen_names w).
Definition set_rels (x : list relationship) (w : world) : world :=
  mkWorld (w_prng w) (w_seeder w) (w_clock w) (w_attrs w) x (w_gens w) (w_dgens w) (w_tgens w)
          (w_pops w) (w_stories w) (w_pop_names w) (w_gen_names w).
Definition set_gens (x : list gen) (w : world) : world :=
  mkWorld (w_prng w) (w_seeder w) (w_clock w) (w_attrs w) (w_rels w) x (w_dgens w) (w_tgens w)
          (w_pops w) (w_stories w) (w_pop_names w) (w_gen_names w).
Definition set_dgens (x : list dgen) (w : world) : world :=
  mkWorld (w_prng w) (w_seeder w) (w_clock w) (w_attrs w) (w_rels w) (w_gens w) x (w_tgens w)
          (w_pops w) (w_stories w) (w_pop_names w) (w_gen_names w).
Definition set_tgens (x : list tgen) (w : world) : world :=
  mkWorld (w_prng w) (w_seeder w) (w_clock w) (w_attrs w) (w_rels w) (w_gens w) (w_dgens w) x
          (w_pops w) (w_stories w) (w_pop_names w) (w_gen_names w).
Definition set_pops (x : list pop) (w : world) : world :=
  mkWorld (w_prng w) (w_seeder w) (w_clock w) (w_attrs w) (w_rels w) (w_gens w) (w_dgens w) (w_tgens w)
          x (w_stories w) (w_pop_names w) (w_gen_names w).
Definition set_stories (x : list story) (w : world) : world :=
  mkWorld (w_prng w) (w_seeder w) (w_clock w) (w_attrs w) (w_rels w) (w_gens w) (w_dgens w) (w_tgens w)
          (w_pops w) x (w_pop_names w) (w_gen_names w).
Definition set_pop_names (x : dict string nat) (w : world) : world :=
  mkWorld (w_prng w) (w_seeder w) (w_clock w) (w_attrs w) (w_rels w) (w_gens w) (w_dgens w) (w_tgens w)
          (w_pops w) (w_stories w) x (w_gen_names w).
Definition set_gen_names (x : dict string nat) (w : world) : world :=
  mkWorld (w_prng w) (w_seeder w) (w_clock w) (w_attrs w) (w_rels w) (w_gens w) (w_dgens w) (w_tgens w)
          (w_pops w) (w_stories w) (w_pop_names w) x.

(** ** Python code: a computation reads and writes the world and may raise;
    what was written before the exception stays.  Simplification: a generator,
    relationship or timer generator whose own method raises keeps the random
    state it had before that call. *)
Definition M (A : Type) : Type := world -> result A * world.

Definition ret {A} (a : A) : M A := fun w => (Ok a, w).
Definition raise {A} (e : exn) : M A := fun w => (Err e, w).
Definition bindM {A B} (m : M A) (f : A -> M B) : M B :=
  fun w => match m w with
           | (Ok a, w') => f a w'
           | (Err e, w') => (Err e, w')
           end.
Definition lift {A} (r : result A) : M A := fun w => (r, w).
Definition get {A} (f : world -> A) : M A := fun w => (Ok (f w), w).
Definition modify (f : world -> world) : M unit := fun w => (Ok tt, f w).

Declare Scope m_scope.
Notation "'let*' x ':=' e 'in' k" := (bindM e (fun x => k))
  (at level 200, x pattern, e at level 100, k at level 200, right associativity) : m_scope.
Open Scope m_scope.

(** sequential loop *)
Fixpoint foreach {A} (f : A -> M unit) (l : list A) : M unit :=
  match l with
  | [] => ret tt
  | x :: l' => let* _ := f x in foreach f l'
  end.

(** Dereferencing; a dangling address never occurs in Python. *)
Definition deref {A} (heap : world -> list A) (i : nat) : M A :=
  fun w => match nth_error (heap w) i with
           | Some x => (Ok x, w)
           | None => (Err Unmodelled, w)
           end.

Definition put_attr (i : nat) (t : series) : M unit :=
  modify (fun w => set_attrs (set_nth i t (w_attrs w)) w).
Definition put_rel (i : nat) (r : relationship) : M unit :=
  modify (fun w => set_rels (set_nth i r (w_rels w)) w).
Definition put_pop (i : nat) (p : pop) : M unit :=
  modify (fun w => set_pops (set_nth i p (w_pops w)) w).
Definition put_story (i : nat) (s : story) : M unit :=
  modify (fun w => set_stories (set_nth i s (w_stories w)) w).
Definition put_tgen (i : nat) (t : tgen) : M unit :=
  modify (fun w => set_tgens (set_nth i t (w_tgens w)) w).

(** ** Calls on generators *)

(** generator.generate(size=...) *)
Definition generate (g : nat) (size : Z) : M (list val) :=
  let* gens := get w_gens in
  let* (vs, gens') := lift (gen_generate gens g size) in
  let* _ := modify (set_gens gens') in
  ret vs.

(** next(circus.seeder), random_generators.py:15-23 *)
Definition next_of_seeder : M N :=
  let* st := get w_seeder in
  let (seed, st') := next_seed st in
  let* _ := modify (set_seeder st') in
  ret seed.

(** ** Population (population.py) *)

(** population.py:15-55 __init__; returns the address of the new object. *)
Definition alloc_pop (ids : list val) (size : Z) : M nat :=
  if negb (nodupb ids) then raise ValueError
  else
    let* pops := get w_pops in
    let* _ := modify (set_pops (pops ++ [mkPop ids size [] []])) in
    ret (length pops).

Definition new_population (ids_gen : option nat) (size : option Z) (ids : option (list val)) : M nat :=
  match ids with
  | Some l =>
      match ids_gen, size with
      | None, None => alloc_pop l (Z.of_nat (length l))
      | _, _ => raise ValueError
      end
  | None =>
      match size with
      | Some 0%Z => alloc_pop [] 0
      | Some n =>
          match ids_gen with
          | Some g => let* l := generate g n in alloc_pop l n
          | None => raise ValueError
          end
      | None => raise ValueError
      end
  end.

(** population.py:57-69 create_relationship; [name is self.relationships] is never
    true, and seed=0 counts as no seed. *)
Definition create_relationship (p : nat) (name : string) (seed : option N) : M nat :=
  let* po := deref w_pops p in
  let* s := match seed with
            | Some (Npos q) => ret (Npos q)
            | _ => next_of_seeder
            end in
  let* g := get w_prng in
  let* rels := get w_rels in
  let* _ := modify (set_rels (rels ++ [new_relationship g s])) in
  let* _ := put_pop p (mkPop (p_ids po) (p_size po) (p_attrs po)
                             (dset name (length rels) (p_rels po))) in
  ret (length rels).

(** relationship.add_relations on the relationship at address [r] *)
Definition rel_add (r : nat) (froms tos : list val) : M unit :=
  let* rel := deref w_rels r in
  let* rel' := lift (add_relations rel froms tos (WScalar 1)) in
  put_rel r rel'.

(** relationship.add_grouped_relations.  Simplification: all or nothing when an
    exception is raised half-way. *)
Definition rel_add_grouped (r : nat) (froms : list val) (items : list (list val)) : M unit :=
  let* rel := deref w_rels r in
  let* rel' := lift (add_grouped_relations rel froms items) in
  put_rel r rel'.

(** population.py:71-90 create_stock_relationship *)
Definition create_stock_relationship (p : nat) (name : string) (item_id_gen : nat)
    (n_items_per_member : Z) : M unit :=
  let* r := create_relationship p name None in
  let* po := deref w_pops p in
  let* items := generate item_id_gen (n_items_per_member * p_size po) in
  let* seed := next_of_seeder in
  let* g := get w_prng in
  let* (assigned, _) := lift (make_random_assign items (p_ids po) (random_state g seed)) in
  rel_add r (map snd assigned) (map fst assigned).

(** population.py:92-102 create_stock_relationship_grp *)
Definition create_stock_relationship_grp (p : nat) (name : string) (stock_bulk_gen : nat) : M unit :=
  let* r := create_relationship p name None in
  let* po := deref w_pops p in
  let* bulks := generate stock_bulk_gen (p_size po) in
  let* items := lift (mapr as_list bulks) in
  rel_add_grouped r (p_ids po) items.

(** population.py:104-109 get_relationship, 115-121 get_attribute *)
Definition get_relationship (p : nat) (name : string) : M nat :=
  let* po := deref w_pops p in
  lift (match dget name (p_rels po) with Some r => Ok r | None => Err KeyError end).
Definition get_attribute (p : nat) (name : string) : M nat :=
  let* po := deref w_pops p in
  lift (match dget name (p_attrs po) with Some a => Ok a | None => Err KeyError end).

(** attribute.py:11-52 Attribute.__init__: the new table.
    A relationship named None falls in the elif branch (29). *)
Definition attr_table (p : nat) (init_values : option init_vals) (init_gen : option nat)
    (init_relationship : option string) : M series :=
  let* po := deref w_pops p in
  if (p_size po =? 0)%Z then ret []
  else
    match init_relationship with
    | None =>
        match init_values, init_gen with
        | Some vs, None => lift (table_of (p_ids po) vs)
        | None, Some g =>
            let* vs := generate g (p_size po) in
            lift (table_of (p_ids po) (VValues vs))
        | _, _ => raise ValueError
        end
    | Some name =>
        let* r := get_relationship p name in
        let* rel := deref w_rels r in
        let* (rows, rel') := lift (select_one rel None false false false None) in
        let* _ := put_rel r rel' in
        ret (map (fun '(_, from, to) => (from, to)) rows)
    end.

(** population.py:111-113 create_attribute *)
Definition create_attribute (p : nat) (name : string) (init_values : option init_vals)
    (init_gen : option nat) (init_relationship : option string) : M nat :=
  let* t := attr_table p init_values init_gen init_relationship in
  let* po := deref w_pops p in
  let* attrs := get w_attrs in
  let* _ := modify (set_attrs (attrs ++ [t])) in
  let* _ := put_pop p (mkPop (p_ids po) (p_size po) (dset name (length attrs) (p_attrs po))
                             (p_rels po)) in
  ret (length attrs).

(** population.py:123-127 get_attribute_values *)
Definition get_attribute_values (p : nat) (name : string) (ids : option (list val)) : M series :=
  let* a := get_attribute p name in
  let* t := deref w_attrs a in
  lift (attr_get_values t ids).

(** attribute.update on the attribute at address [a] *)
Definition update_attr (a : nat) (s : series) : M unit :=
  let* t := deref w_attrs a in
  let (res, t') := attr_update t s in
  let* _ := put_attr a t' in
  lift res.

(** df[~df.index.duplicated(keep="last")] *)
Fixpoint keep_last {A} (rows : list (val * A)) : list (val * A) :=
  match rows with
  | [] => []
  | r :: rows' => if mem (fst r) (map fst rows') then keep_last rows' else r :: keep_last rows'
  end.

Definition same_names (a b : list string) : bool :=
  forallb (fun x => mem x b) a && forallb (fun x => mem x a) b.

(** population.py:135-166 update (repeated column names are not modelled) *)
Definition pop_update (p : nat) (d : df) : M unit :=
  let* po := deref w_pops p in
  if negb (same_names (dkeys (p_attrs po)) (df_cols d)) then raise ValueError
  else if negb (nodupb (df_cols d)) then raise Unmodelled
  else
    let dedup := mkDf (df_cols d) (keep_last (df_rows d)) in
    let new_ids := index_difference (df_index dedup) (p_ids po) in
    let* _ := put_pop p (mkPop (index_union (p_ids po) new_ids) (p_size po) (p_attrs po) (p_rels po)) in
    foreach (fun name =>
               let* s := lift (get_col dedup name) in
               let* a := get_attribute p name in
               update_attr a s)
            (df_cols d).

(** population.py:168-177 to_dataframe.  [df[name] = series] aligns on the
    index; with distinct labels on both sides this is the series itself.
    [attr_columns] is the loop of lines 174-175. *)
Fixpoint attr_columns (p : nat) (ids : list val) (names : list string) (acc : df) : M df :=
  match names with
  | [] => ret acc
  | name :: names' =>
      let* s := get_attribute_values p name (Some ids) in
      if negb (list_eqb (map fst s) ids) then raise Unmodelled
      else attr_columns p ids names'
             (mkDf (df_cols acc ++ [name])
                (map (fun '(r, kv) => (fst r, snd r ++ [snd kv])) (combine (df_rows acc) s)))
  end.
Definition to_dataframe (p : nat) : M df :=
  let* po := deref w_pops p in
  attr_columns p (p_ids po) (dkeys (p_attrs po)) (mkDf [] (map (fun i => (i, [])) (p_ids po))).

(** population.py:383-421 PopulationOps.select_one: the weights are checked and a
    generator is created when the operation is built; the ids are those of the
    population at that time.  attributes / attributes.sum() is a Series in the
    order of the attribute's table. *)
Definition select_weights (t : series) : result (list (option Q)) :=
  let! ws := mapr as_Q (map snd t) in
  if existsb (fun q => Qltb q 0) ws then Err ValueError
  else if Qeq_bool (qsum ws) 0 then Err ValueError
  else Ok (map (fun q => Some (q / qsum ws)%Q) ws).

Definition pop_select_one (p : nat) (named_as : string) (weight_attribute : option string) : M op :=
  let* po := deref w_pops p in
  let* weights := match weight_attribute with
                  | None => ret None
                  | Some name =>
                      let* t := get_attribute_values p name None in
                      let* ws := lift (select_weights t) in
                      ret (Some ws)
                  end in
  let* seed := next_of_seeder in
  let* g := get w_prng in
  let* gens := get w_gens in
  let* _ := modify (set_gens (gens ++ [GNumpy (NpChoice (p_ids po) weights) (random_state g seed) None])) in
  ret (OpGenerate (length gens) named_as None).
