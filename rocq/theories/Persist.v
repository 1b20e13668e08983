(** Model of the persistence code: /repo/trumania/components/db.py and the save_to / load_from
    methods of attributes, relationships, populations, generators, timer profiles and circuses.
    Simplifications: names are path components (no "/"); json.dump and json.load are inverse of
    each other; a CSV file is its lines, a line its cells (quoting keeps them apart). *)
From Verif Require Import Base BaseFacts Rng Utils Relationship Frame Gens Clock Attribute World Circus Fs.

(** ** Text of a cell and type inference of pandas.read_csv *)

(** How numbers, lists, dates and durations are written (str, repr, isoformat), and which texts
    are read as numbers, dates (pd.Timestamp) and durations (pd.Timedelta). *)
Record text_format := mkFormat {
  show_num : Qc -> string;
  read_num : string -> option Qc;
  show_list : list val -> string;
  show_date : Z -> string;
  read_date : string -> option Z;
  show_span : Z -> string;
  read_span : string -> option Z
}.

(** pandas 1.4, STR_NA_VALUES *)
Definition na_texts : list string :=
  [""; "#N/A"; "#N/A N/A"; "#NA"; "-1.#IND"; "-1.#QNAN"; "-NaN"; "-nan"; "1.#IND"; "1.#QNAN";
   "<NA>"; "N/A"; "NA"; "NULL"; "NaN"; "n/a"; "nan"; "null"]%string.
Definition is_na_text (s : string) : bool := mem s na_texts.

Definition bool_text (s : string) : option bool :=
  if mem s ["True"; "TRUE"; "true"]%string then Some true
  else if mem s ["False"; "FALSE"; "false"]%string then Some false else None.

(** DataFrame.to_csv, one cell *)
Definition show (fmt : text_format) (v : val) : string :=
  match v with
  | VNA => ""%string
  | VBool true => "True"%string
  | VBool false => "False"%string
  | VNum q => show_num fmt q
  | VStr s => s
  | VList l => show_list fmt l
  end.

Definition is_some {A} (o : option A) : bool := match o with Some _ => true | None => false end.

(** read_csv, one column (index columns included): numbers if every cell is one or is missing,
    else booleans, else texts. *)
Definition read_column (fmt : text_format) (cells : list string) : list val :=
  if forallb (fun s => is_na_text s || is_some (read_num fmt s)) cells then
    map (fun s => if is_na_text s then VNA
                  else match read_num fmt s with Some q => VNum q | None => VNA end) cells
  else if forallb (fun s => is_na_text s || is_some (bool_text s)) cells then
    map (fun s => if is_na_text s then VNA
                  else match bool_text s with Some b => VBool b | None => VNA end) cells
  else map (fun s => if is_na_text s then VNA else VStr s) cells.

Definition table := list (list string).
Definition column (j : nat) (rows : table) : list string := map (fun r => nth j r ""%string) rows.

(** ** Attributes *)

(** attribute.py:92-94 save_to *)
Definition attr_table (fmt : text_format) (t : series) : table :=
  [""; "value"]%string :: map (fun '(i, v) => [show fmt i; show fmt v]) t.

(** attribute.py:96-109 load_from, on a file with the two columns save_to writes *)
Definition load_attr (fmt : text_format) (tab : table) : result series :=
  match tab with
  | [] => Err ValueError
  | _ :: rows => Ok (combine (read_column fmt (column 0 rows)) (read_column fmt (column 1 rows)))
  end.

(** ** Relationships *)

(** relationship.py:468-473: get_relations().stack(), rows (param, row, field, value); missing
    values are dropped *)
Definition stack_line (fmt : text_format) (i : nat) (field : string) (v : val) : table :=
  match v with
  | VNA => []
  | _ => [["relations"%string; show fmt (vnat i); field; show fmt v]]
  end.
Fixpoint stack_lines (fmt : text_format) (i : nat) (l : list (val * val * Q)) : table :=
  match l with
  | [] => []
  | (f, t, w) :: l' =>
      stack_line fmt i "from" f ++ stack_line fmt i "to" t ++ stack_line fmt i "weight" (vq w) ++
      stack_lines fmt (S i) l'
  end.
Definition seed_line (fmt : text_format) (seed : N) : list string :=
  ["seed"; show fmt (vz 0); "0"; show fmt (vz (Z.of_N seed))]%string.

(** relationship.py:460-480 save_to *)
Definition rel_table (fmt : text_format) (r : relationship) : table :=
  ["param"; ""; ""; "value"]%string ::
  stack_lines fmt 0 (get_relations r None) ++ [seed_line fmt (r_seed r)].

(** One line of saved_df: (param, row, field, value). *)
Record saved_line := mkLine { l_param : string; l_row : val; l_field : string; l_value : val }.
Definition read_lines (fmt : text_format) (rows : table) : list saved_line :=
  map (fun '(p, (r, (f, v))) => mkLine p r f v)
      (combine (column 0 rows)
         (combine (read_column fmt (column 1 rows))
            (combine (column 2 rows) (read_column fmt (column 3 rows))))).

(** float(v) of an object; NaN is not modelled *)
Definition as_float (fmt : text_format) (v : val) : result Q :=
  match v with
  | VNum q => Ok (this q)
  | VStr s => match read_num fmt s with Some q => Ok (this q) | None => Err ValueError end
  | _ => Err Unmodelled
  end.

(** unstack(): the value in the given row and column *)
Definition cell_at (ls : list saved_line) (row : val) (field : string) : val :=
  match find (fun l => keqb (l_row l) row && keqb (l_field l) field) ls with
  | Some l => l_value l
  | None => VNA
  end.
(** relations[field].values, in the order of the sorted row labels *)
Definition unstacked (ls : list saved_line) (field : string) : result (list val) :=
  if existsb (fun l => keqb (l_field l) field) ls
  then Ok (map (fun row => cell_at ls row field) (isort val_leb (uniq (map l_row ls))))
  else Err KeyError.

(** relationship.py:482-498 load_from *)
Definition load_rel (g : prng) (fmt : text_format) (tab : table) : result relationship :=
  match tab with
  | [] => Err ValueError
  | _ :: rows =>
      let ls := read_lines fmt rows in
      let! seed := match find (fun l => keqb (l_param l) "seed"%string) ls with
                   | Some l => let! q := as_float fmt (l_value l) in Ok (Z.to_N (trunc_Q q))
                   | None => Err KeyError
                   end in
      let rels := filter (fun l => keqb (l_param l) "relations"%string) ls in
      match rels with
      | [] => Err KeyError
      | _ =>
          let! froms := unstacked rels "from"%string in
          let! tos := unstacked rels "to"%string in
          let! ws := unstacked rels "weight"%string in
          let! ws' := mapr (as_float fmt) ws in
          add_relations (new_relationship g seed) froms tos (WArray ws')
      end
  end.

(** ** Timer profiles and empirical distributions *)

(** pd.Timestamp(s) and pd.Timedelta(s) *)
Definition as_date (fmt : text_format) (s : string) : result Z :=
  match read_date fmt s with Some z => Ok z | None => Err ValueError end.
Definition as_span (fmt : text_format) (s : string) : result Z :=
  match read_span fmt s with Some z => Ok z | None => Err ValueError end.
Definition as_text (v : val) : result string :=
  match v with VStr s => Ok s | _ => Err Unmodelled end.

(** clock.py:319-329 CyclicTimerProfile.save_to, lines (param, row, value).
    Simplification: profile_time_steps, a text given by the user, is the text of its duration. *)
Definition profile_table (fmt : text_format) (p : timer_profile) : table :=
  [""; ""; "value"]%string ::
  map (fun '(i, q) => ["profile"%string; show fmt (vnat i); show fmt (vq q)])
      (combine (seq 0 (length (p_weights p))) (p_weights p)) ++
  [["start_date"%string; show fmt (vz 0); show_date fmt (p_start p)];
   ["profile_time_steps"%string; show fmt (vz 0); show_span fmt (p_step p)]].

(** saved_df.loc[param].values[0][0] *)
Definition param_value (param : string) (ls : list (string * val)) : result val :=
  match find (fun l => keqb (fst l) param) ls with Some l => Ok (snd l) | None => Err KeyError end.

(** clock.py:331-342 load_from *)
Definition load_profile (fmt : text_format) (tab : table) : result timer_profile :=
  match tab with
  | [] => Err ValueError
  | _ :: rows =>
      let ls := combine (column 0 rows) (read_column fmt (column 2 rows)) in
      match filter (fun l => keqb (fst l) "profile"%string) ls with
      | [] => Err KeyError
      | prof =>
          let! ws := mapr (fun l => as_float fmt (snd l)) prof in
          let! step_text := param_value "profile_time_steps" ls in
          let! step_text := as_text step_text in
          let! step := as_span fmt step_text in
          let! start_text := param_value "start_date" ls in
          let! start_text := as_text start_text in
          let! start := as_date fmt start_text in
          Ok (mkProfile ws step start)
      end
  end.

(** db.py:85-96 save_empirical_discrete_generator, after its assertion *)
Definition empirical_table (fmt : text_format) (values : list val) (distribution : list Q) : table :=
  ["x"; "px"]%string :: map (fun '(v, q) => [show fmt v; show fmt (vq q)]) (combine values distribution).
Definition save_empirical (fmt : text_format) (values : list val) (distribution : list Q) : result table :=
  if Qltb (qsum distribution - 1) (1 # 1000000) then
    if length values =? length distribution then Ok (empirical_table fmt values distribution)
    else Err ValueError
  else Err AssertionError.
(** db.py:99-110 load_empirical_discrete_generator *)
Definition load_empirical (g : prng) (fmt : text_format) (tab : table) (seed : N) : result gen :=
  match tab with
  | [] => Err ValueError
  | _ :: rows =>
      let! ps := mapr (as_float fmt) (read_column fmt (column 1 rows)) in
      Ok (GNumpy (NpChoice (read_column fmt (column 0 rows)) (Some (map Some ps))) (random_state g seed) None)
  end.

(** ** Documents and the file system.  [JParams] is a parameters object, known by its text. *)
Inductive json :=
| JConfig (master_seed : N) (start step : string)
| JNumpy (m : np_method) (state : rng)
| JSeq (counter : Z) (prefix : string) (max_length : nat)
| JParams (text : string).

Inductive doc := Csv (t : table) | Json (j : json).

(** A computation writing files; what was written before an exception stays. *)
Definition F (A : Type) : Type := node doc -> result A * node doc.
Definition retF {A} (a : A) : F A := fun n => (Ok a, n).
Definition raiseF {A} (e : exn) : F A := fun n => (Err e, n).
Definition bindF {A B} (m : F A) (f : A -> F B) : F B :=
  fun n => match m n with
           | (Ok a, n') => f a n'
           | (Err e, n') => (Err e, n')
           end.
(** one call on the file system *)
Definition sys (f : node doc -> result (node doc)) : F unit :=
  fun n => match f n with Ok n' => (Ok tt, n') | Err e => (Err e, n) end.
Notation "'do' x ':=' e 'in' k" := (bindF e (fun x => k))
  (at level 200, x pattern, e at level 100, k at level 200, right associativity).
Fixpoint foreachF {A} (f : A -> F unit) (l : list A) : F unit :=
  match l with
  | [] => retF tt
  | x :: l' => do _ := f x in foreachF f l'
  end.

Definition read_csv (n : node doc) (p : path) : result table :=
  let! d := read_file n p in
  match d with Csv t => Ok t | Json _ => Err Unmodelled end.
Definition read_json (n : node doc) (p : path) : result json :=
  let! d := read_file n p in
  match d with Json j => Ok j | Csv _ => Err ValueError end.

(** ** Populations *)

Definition csv_name (name : string) : string := (name ++ ".csv")%string.

(** population.py:207: a series without name, hence the header "0" *)
Definition ids_table (fmt : text_format) (ids : list val) : table :=
  ["0"%string] :: map (fun i => [show fmt i]) ids.
(** population.py:235, 260: the header is read as an id and dropped *)
Definition load_ids (fmt : text_format) (tab : table) : list val := tl (read_column fmt (column 0 tab)).

Definition write_attr (fmt : text_format) (w : world) (dir : path) (x : string * nat) : F unit :=
  match nth_error (w_attrs w) (snd x) with
  | None => raiseF Unmodelled
  | Some t => sys (fun n => write_file n (dir ++ [csv_name (fst x)]) (Csv (attr_table fmt t)))
  end.
Definition write_rel (fmt : text_format) (w : world) (dir : path) (x : string * nat) : F unit :=
  match nth_error (w_rels w) (snd x) with
  | None => raiseF Unmodelled
  | Some r => sys (fun n => write_file n (dir ++ [csv_name (fst x)]) (Csv (rel_table fmt r)))
  end.

(** population.py:193-222 save_to *)
Definition save_population (fmt : text_format) (w : world) (po : pop) (folder : path) : F unit :=
  do _ := sys (fun n => ensure_non_existing_dir n folder) in
  do _ := sys (fun n => os_makedirs n folder) in
  do _ := sys (fun n => write_file n (folder ++ ["ids.csv"%string]) (Csv (ids_table fmt (p_ids po)))) in
  do _ := match p_attrs po with
          | [] => retF tt
          | attrs =>
              do _ := sys (fun n => os_mkdir n (folder ++ ["attributes"%string])) in
              foreachF (write_attr fmt w (folder ++ ["attributes"%string])) attrs
          end in
  match p_rels po with
  | [] => retF tt
  | rels =>
      do _ := sys (fun n => os_mkdir n (folder ++ ["relationships"%string])) in
      foreachF (write_rel fmt w (folder ++ ["relationships"%string])) rels
  end.

(** filename[:-4] *)
Definition drop4 (s : string) : string := String.substring 0 (String.length s - 4) s.

(** [ls] is the order in which os.listdir gives the names. *)
Definition listed_in (ls : list string -> list string) (n : node doc) (p : path) : result (list string) :=
  let! names := listdir n p in Ok (ls names).

(** population.py:238-243 *)
Fixpoint load_attrs (fmt : text_format) (n : node doc) (dir : path) (files : list string)
    (acc : dict string nat) : M (dict string nat) :=
  match files with
  | [] => ret acc
  | f :: files' =>
      let* tab := lift (read_csv n (dir ++ [f])) in
      let* t := lift (load_attr fmt tab) in
      let* attrs := get w_attrs in
      let* _ := modify (set_attrs (attrs ++ [t])) in
      load_attrs fmt n dir files' (dset (drop4 f) (length attrs) acc)
  end.
(** population.py:248-253 *)
Fixpoint load_rels (fmt : text_format) (n : node doc) (dir : path) (files : list string)
    (acc : dict string nat) : M (dict string nat) :=
  match files with
  | [] => ret acc
  | f :: files' =>
      let* tab := lift (read_csv n (dir ++ [f])) in
      let* g := get w_prng in
      let* r := lift (load_rel g fmt tab) in
      let* rels := get w_rels in
      let* _ := modify (set_rels (rels ++ [r])) in
      load_rels fmt n dir files' (dset (drop4 f) (length rels) acc)
  end.

(** population.py:224-263 load_from *)
Definition load_population_from (fmt : text_format) (ls : list string -> list string)
    (n : node doc) (folder : path) : M nat :=
  let* tab := lift (read_csv n (folder ++ ["ids.csv"%string])) in
  let* attrs :=
    if path_exists n (folder ++ ["attributes"%string]) then
      let* files := lift (listed_in ls n (folder ++ ["attributes"%string])) in
      load_attrs fmt n (folder ++ ["attributes"%string]) files []
    else ret [] in
  let* rels :=
    if path_exists n (folder ++ ["relationships"%string]) then
      let* files := lift (listed_in ls n (folder ++ ["relationships"%string])) in
      load_rels fmt n (folder ++ ["relationships"%string]) files []
    else ret [] in
  let ids := load_ids fmt tab in
  let* pops := get w_pops in
  let* _ := modify (set_pops (pops ++ [mkPop ids (Z.of_nat (length ids)) attrs rels])) in
  ret (length pops).

(** ** Generators *)

(** generator.__class__.__name__ *)
Definition gen_class (g : gen) : string :=
  match g with
  | GConst _ => "ConstantGenerator"
  | GFixed _ => "FixedValuesGenerator"
  | GNumpy _ _ _ => "NumpyRandomGenerator"
  | GPareto _ _ _ _ => "ParetoGenerator"
  | GSeq _ _ _ => "SequencialGenerator"
  | GOracle _ _ => "FakerGenerator"
  | GMsisdn _ _ _ _ _ _ => "MSISDNGenerator"
  | GMap _ _ | GBulk _ _ => "Transformed"
  end%string.

(** random_generators.py:195-208 and 295-306 save_to; 92-93 for the other classes: raise
    NotImplemented(...) calls an object that is not callable *)
Definition gen_json (g : gen) : result json :=
  match g with
  | GNumpy m state _ => Ok (JNumpy m state)
  | GSeq counter prefix max_length => Ok (JSeq counter prefix max_length)
  | _ => Err TypeError
  end.

(** random_generators.py:98-104 load_generator, 210-233 and 308-318 load_from.  The generator is
    built with seed 1234; its method stays bound to that RandomState when gen.state is replaced. *)
Definition load_gen (g : prng) (gen_type : string) (n : node doc) (p : path) : result gen :=
  if keqb gen_type "NumpyRandomGenerator"%string then
    let! j := read_json n p in
    match j with
    | JNumpy m state => Ok (GNumpy m state (Some (random_state g 1234)))
    | _ => Err KeyError
    end
  else if keqb gen_type "SequencialGenerator"%string then
    let! j := read_json n p in
    match j with
    | JSeq counter prefix max_length => Ok (GSeq counter prefix max_length)
    | _ => Err KeyError
    end
  else Err ValueError.

(** ** db.py *)

Definition json_name (item : string) : string := (item ++ ".json")%string.

(** db.py:117-118 namespace_folder, 132-137 population folders, 140-147 generator folders *)
Definition namespace_folder (db : path) (namespace : string) : path := db ++ [namespace].
Definition populations_folder (db : path) (namespace : string) : path :=
  namespace_folder db namespace ++ ["populations"%string].
Definition population_folder (db : path) (namespace population_id : string) : path :=
  populations_folder db namespace ++ [population_id].
Definition generators_folder (db : path) (namespace : string) : path :=
  namespace_folder db namespace ++ ["generators"%string].
Definition gen_folder (db : path) (namespace gen_type : string) : path :=
  generators_folder db namespace ++ [gen_type].

(** db.py:38-44 save_generator *)
Definition save_generator (db : path) (namespace gen_id : string) (g : gen) : F unit :=
  let folder := gen_folder db namespace (gen_class g) in
  do _ := sys (fun n => ensure_folder_exists n folder) in
  match gen_json g with
  | Ok j => sys (fun n => write_file n (folder ++ [json_name gen_id]) (Json j))
  | Err e => raiseF e
  end.

(** db.py:71-75 save_timer_gen *)
Definition save_timer_gen (fmt : text_format) (db : path) (namespace timer_gen_id : string)
    (p : timer_profile) : F unit :=
  let folder := generators_folder db namespace ++ ["timer_gens"%string] in
  do _ := sys (fun n => ensure_folder_exists n folder) in
  sys (fun n => write_file n (folder ++ [csv_name timer_gen_id]) (Csv (profile_table fmt p))).

(** db.py:32-35 list_populations: the entries that are directories *)
Definition list_populations (ls : list string -> list string) (n : node doc) (db : path)
    (namespace : string) : result (list string) :=
  let folder := populations_folder db namespace in
  let! names := listed_in ls n folder in
  Ok (filter (fun d => match lookup n (folder ++ [d]) with Some (Dir _) => true | _ => false end) names).

(** gen_file.split(".")[0] *)
Fixpoint before_dot (s : string) : string :=
  match s with
  | EmptyString => EmptyString
  | String c s' => if Ascii.eqb c "." then EmptyString else String c (before_dot s')
  end.

(** db.py:47-58 list_generators *)
Definition list_generators (ls : list string -> list string) (n : node doc) (db : path)
    (namespace : string) : result (list (string * string)) :=
  let folder := generators_folder db namespace in
  if path_exists n folder then
    let! types := listed_in ls n folder in
    let! found := mapr (fun t => let! files := listed_in ls n (folder ++ [t]) in
                                 Ok (map (fun f => (t, before_dot f)) files)) types in
    Ok (concat found)
  else Ok [].

(** ** Circuses *)

(** The attributes of a Circus object that are persisted, and the rest of its state.
    circus.py:30-39 *)
Record circus := mkCircus {
  c_name : string;
  c_master_seed : N;
  c_start : Z;
  c_step : Z;
  c_world : world
}.

(** circus.py:245-248 and 250-252 *)
Definition save_pop_item (fmt : text_format) (db : path) (c : circus) (x : string * nat) : F unit :=
  match nth_error (w_pops (c_world c)) (snd x) with
  | None => raiseF Unmodelled
  | Some po => save_population fmt (c_world c) po (population_folder db (c_name c) (fst x))
  end.
Definition save_gen_item (db : path) (c : circus) (x : string * nat) : F unit :=
  match nth_error (w_gens (c_world c)) (snd x) with
  | None => raiseF Unmodelled
  | Some g => save_generator db (c_name c) (fst x) g
  end.

(** circus.py:215-254 save_to_db; db.py:121-125 create_namespace *)
Definition save_to_db (fmt : text_format) (db : path) (c : circus) (overwrite : bool) : F unit :=
  let folder := namespace_folder db (c_name c) in
  do _ := (fun n => if path_exists n folder then
                      if overwrite then sys (fun n => ensure_non_existing_dir n folder) n
                      else (Err OSError, n)
                    else (Ok tt, n)) in
  do _ := sys (fun n => ensure_folder_exists n folder) in
  do _ := sys (fun n => write_file n (folder ++ ["circus_config.json"%string])
                          (Json (JConfig (c_master_seed c) (show_date fmt (c_start c)) (show_span fmt (c_step c))))) in
  do _ := foreachF (save_pop_item fmt db c) (w_pop_names (c_world c)) in
  foreachF (save_gen_item db c) (w_gen_names (c_world c)).

(** circus.py:53-66 load_population *)
Definition load_population (fmt : text_format) (ls : list string -> list string) (n : node doc)
    (db : path) (namespace population_id : string) : M unit :=
  let* p := load_population_from fmt ls n (population_folder db namespace population_id) in
  let* names := get w_pop_names in
  modify (set_pop_names (dset population_id p names)).

(** circus.py:114-122 load_generator *)
Definition load_generator (n : node doc) (db : path) (namespace : string) (x : string * string) : M unit :=
  let* g := get w_prng in
  let* gen := lift (load_gen g (fst x) n (gen_folder db namespace (fst x) ++ [json_name (snd x)])) in
  let* gens := get w_gens in
  let* _ := modify (set_gens (gens ++ [gen])) in
  attach_generator (snd x) (length gens).

(** circus.py:187-213 load_from_db *)
Definition load_from_db (fmt : text_format) (ls : list string -> list string) (g : prng)
    (n : node doc) (db : path) (name : string) : result circus :=
  let! j := read_json n (namespace_folder db name ++ ["circus_config.json"%string]) in
  match j with
  | JConfig seed start_text step_text =>
      let! start := as_date fmt start_text in
      let! step := as_span fmt step_text in
      let! pops := list_populations ls n db name in
      match foreach (load_population fmt ls n db name) pops (new_circus g seed start step) with
      | (Err e, _) => Err e
      | (Ok _, w1) =>
          let! gens := list_generators ls n db name in
          match foreach (load_generator n db name) gens w1 with
          | (Err e, _) => Err e
          | (Ok _, w2) => Ok (mkCircus name seed start step w2)
          end
      end
  | _ => Err KeyError
  end.
