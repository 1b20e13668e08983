(** A file system as the code uses it (os.path.exists, isfile, listdir, remove,
    rmdir, mkdir, makedirs, open), and the helpers of
    /repo/trumania/core/util_functions.py working on it.
    A path is the list of its components from the root.  Simplification: no
    symbolic links, no permissions. *)
From Verif Require Import Base BaseFacts.

Definition path := list string.

Inductive node (C : Type) :=
| File (c : C)
| Dir (entries : list (string * node C)).
Arguments File {C} c.
Arguments Dir {C} entries.

Section Fs.
  Context {C : Type}.

  Fixpoint lookup (n : node C) (p : path) : option (node C) :=
    match p with
    | [] => Some n
    | c :: p' => match n with
                 | Dir es => match dget c es with Some m => lookup m p' | None => None end
                 | File _ => None
                 end
    end.

  (** os.path.exists *)
  Definition path_exists (n : node C) (p : path) : bool :=
    match lookup n p with Some _ => true | None => false end.

  (** os.listdir *)
  Definition listdir (n : node C) (p : path) : result (list string) :=
    match lookup n p with Some (Dir es) => Ok (dkeys es) | _ => Err OSError end.

  (** Put [m] at [p]; the parent must be an existing directory. *)
  Fixpoint insert_at (n : node C) (p : path) (m : node C) : result (node C) :=
    match p, n with
    | [], _ => Err OSError
    | _, File _ => Err OSError
    | [c], Dir es => Ok (Dir (dset c m es))
    | c :: p', Dir es =>
        match dget c es with
        | Some k => let! k' := insert_at k p' m in Ok (Dir (dset c k' es))
        | None => Err OSError
        end
    end.

  (** Remove the entry at [p]. *)
  Fixpoint delete_at (n : node C) (p : path) : result (node C) :=
    match p, n with
    | [], _ => Err OSError
    | _, File _ => Err OSError
    | [c], Dir es => if dmem c es then Ok (Dir (ddel c es)) else Err OSError
    | c :: p', Dir es =>
        match dget c es with
        | Some k => let! k' := delete_at k p' in Ok (Dir (dset c k' es))
        | None => Err OSError
        end
    end.

  (** os.remove refuses directories, os.rmdir anything but an empty directory *)
  Definition os_remove (n : node C) (p : path) : result (node C) :=
    match lookup n p with Some (File _) => delete_at n p | _ => Err OSError end.
  Definition os_rmdir (n : node C) (p : path) : result (node C) :=
    match lookup n p with Some (Dir []) => delete_at n p | _ => Err OSError end.

  (** os.mkdir refuses an existing path and a missing parent *)
  Definition os_mkdir (n : node C) (p : path) : result (node C) :=
    if path_exists n p then Err OSError else insert_at n p (Dir []).

  (** the missing directories of [p] are created *)
  Fixpoint make_path (n : node C) (p : path) : result (node C) :=
    match p, n with
    | [], _ => Ok n
    | _, File _ => Err OSError
    | c :: p', Dir es =>
        let! k' := make_path (match dget c es with Some k => k | None => Dir [] end) p' in
        Ok (Dir (dset c k' es))
    end.
  (** os.makedirs refuses an existing path *)
  Definition os_makedirs (n : node C) (p : path) : result (node C) :=
    if path_exists n p then Err OSError else make_path n p.

  (** open(p, "w") and write; opening a directory fails *)
  Definition write_file (n : node C) (p : path) (c : C) : result (node C) :=
    match lookup n p with
    | Some (Dir _) => Err OSError
    | _ => insert_at n p (File c)
    end.

  Definition read_file (n : node C) (p : path) : result C :=
    match lookup n p with Some (File c) => Ok c | _ => Err OSError end.

  (** util_functions.py:185-201 ensure_non_existing_dir; [t] is the tree found at
      [p] when the function is entered (the recursive calls only touch what is
      below). *)
  Fixpoint ensure_gone (t : node C) (n : node C) (p : path) : result (node C) :=
    if path_exists n p then
      match t with
      | File _ => os_remove n p
      | Dir es =>
          let! n' := (fix go (es : list (string * node C)) (n : node C) : result (node C) :=
                        match es with
                        | [] => Ok n
                        | (f, t') :: es' => let! n1 := ensure_gone t' n (p ++ [f]) in go es' n1
                        end) es n in
          os_rmdir n' p
      end
    else Ok n.

  Definition ensure_non_existing_dir (n : node C) (p : path) : result (node C) :=
    match lookup n p with
    | None => Ok n
    | Some t => ensure_gone t n p
    end.

  (** util_functions.py:180-182 ensure_folder_exists *)
  Definition ensure_folder_exists (n : node C) (p : path) : result (node C) :=
    if path_exists n p then Ok n else os_makedirs n p.
End Fs.
