(** Model of what is stored in a namespace beside a circus:
    /repo/trumania/core/circus.py:256-266 save_params_to_db and the functions of
    /repo/trumania/components/db.py which take a namespace. *)
From Verif Require Import Base BaseFacts Rng Frame Gens Clock World Circus Fs Persist.

(** circus.py:256-266 save_params_to_db, for parameters json.dump accepts: their text *)
Definition params_name (params_type : string) : string := ("params_" ++ params_type ++ ".json")%string.
Definition save_params_to_db (db : path) (name params_type params : string) : F unit :=
  sys (fun n => write_file n (namespace_folder db name ++ [params_name params_type]) (Json (JParams params))).

(** db.py:113-114 is_namespace_existing, 121-125 create_namespace, 128-129 remove_namespace *)
Definition is_namespace_existing (db : path) (namespace : string) (n : node doc) : bool :=
  path_exists n (namespace_folder db namespace).
Definition create_namespace (db : path) (namespace : string) : F unit :=
  sys (fun n => ensure_folder_exists n (namespace_folder db namespace)).
Definition remove_namespace (db : path) (namespace : string) : F unit :=
  sys (fun n => ensure_non_existing_dir n (namespace_folder db namespace)).

(** db.py:78-82 load_timer_gen_config *)
Definition timer_gens_folder (db : path) (namespace : string) : path :=
  generators_folder db namespace ++ ["timer_gens"%string].
Definition load_timer_gen_config (fmt : text_format) (n : node doc) (db : path) (namespace timer_gen_id : string) : result timer_profile :=
  let! tab := read_csv n (timer_gens_folder db namespace ++ [csv_name timer_gen_id]) in
  load_profile fmt tab.

(** db.py:85-96 save_empirical_discrete_generator *)
Definition empirical_folder (db : path) (namespace : string) : path :=
  generators_folder db namespace ++ ["empirical_discrete_gens"%string].
Definition save_empirical_generator (fmt : text_format) (db : path) (namespace gen_id : string)
    (values : list val) (distribution : list Q) : F unit :=
  match save_empirical fmt values distribution with
  | Err e => raiseF e
  | Ok tab =>
      do _ := sys (fun n => ensure_folder_exists n (empirical_folder db namespace)) in
      sys (fun n => write_file n (empirical_folder db namespace ++ [csv_name gen_id]) (Csv tab))
  end.
(** db.py:99-110 load_empirical_discrete_generator *)
Definition load_empirical_generator (g : prng) (fmt : text_format) (n : node doc) (db : path)
    (namespace gen_id : string) (seed : N) : result gen :=
  let! tab := read_csv n (empirical_folder db namespace ++ [csv_name gen_id]) in
  load_empirical g fmt tab seed.
