(** Model of the descriptions of circuses: /repo/trumania/core/circus.py:268-282, population.py:129-133 and
    179-188, random_generators.py:95-96, 188-193 and 288-293. *)
From Verif Require Import Base BaseFacts Rng Relationship Frame Gens Clock Attribute World Circus Persist.

(** The Python objects found in descriptions.  [PyKeys] is what dict.keys() returns: a view, not a list.
    [PyObject] is any other object, with the text json.dumps gives it, None when it refuses it. *)
Inductive py :=
| PyText (s : string)
| PyInt (z : Z)
| PyDict (d : list (string * py))
| PyKeys (l : list string)
| PyObject (text : option string).

(** What json.dumps returns, as a tree.  Simplification: indentation and quotes are left out. *)
Inductive tree :=
| TText (s : string)
| TInt (z : Z)
| TDict (d : list (string * tree))
| TRaw (text : string).

(** json.dumps(x, indent=4): views of dictionaries are not JSON serializable *)
Fixpoint dumps (x : py) : result tree :=
  match x with
  | PyText s => Ok (TText s)
  | PyInt z => Ok (TInt z)
  | PyDict d =>
      let! d' := (fix items (d : list (string * py)) : result (list (string * tree)) :=
                    match d with
                    | [] => Ok []
                    | (k, y) :: d' => let! t := dumps y in let! ts := items d' in Ok ((k, t) :: ts)
                    end) d in
      Ok (TDict d')
  | PyKeys _ => Err TypeError
  | PyObject (Some s) => Ok (TRaw s)
  | PyObject None => Err TypeError
  end.

(** population.py:179-188; attribute_names and relationship_names (129-133) return keys() *)
Definition describe_population (po : pop) : py :=
  PyDict [("size"%string, PyInt (p_size po));
          ("attributes"%string, PyKeys (dkeys (p_attrs po)));
          ("relationships"%string, PyKeys (dkeys (p_rels po)))].

(** random_generators.py:95-96 (Generator), 188-193 (NumpyRandomGenerator), 288-293 (SequencialGenerator).
    [method] and [parameters] tell the name and the parameters of a numpy method. *)
Definition describe_generator (method : np_method -> string) (parameters : np_method -> py) (g : gen) : py :=
  match g with
  | GNumpy m _ _ => PyDict [("type"%string, PyText "NumpyRandomGenerator"); ("method"%string, PyText (method m));
                            ("numpy_parameters"%string, parameters m)]
  | GSeq _ prefix max_length => PyDict [("type"%string, PyText "SequencialGenerator"); ("prefix"%string, PyText prefix);
                                        ("max_length"%string, PyInt (Z.of_nat max_length))]
  | _ => PyDict []
  end.

(** {name: f(object) for name, object in d.items()} *)
Definition describe_all {A} (heap : list A) (f : A -> py) (names : dict string nat) : result py :=
  let! items := mapr (fun x => match nth_error heap (snd x) with Some o => Ok (fst x, f o) | None => Err Unmodelled end) names in
  Ok (PyDict items).

(** circus.py:268-279 description *)
Definition description (method : np_method -> string) (parameters : np_method -> py) (c : circus) : result py :=
  let w := c_world c in
  let! pops := describe_all (w_pops w) describe_population (w_pop_names w) in
  let! gens := describe_all (w_gens w) (describe_generator method parameters) (w_gen_names w) in
  Ok (PyDict [("circus_name"%string, PyText (c_name c)); ("master_seed"%string, PyInt (Z.of_N (c_master_seed c)));
              ("populations"%string, pops); ("generators"%string, gens)]).

(** circus.py:281-282 __str__ *)
Definition str_circus (method : np_method -> string) (parameters : np_method -> py) (c : circus) : result tree :=
  let! d := description method parameters c in dumps d.
