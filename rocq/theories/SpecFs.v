(** Specification vocabulary for the file system: what can be seen at a path. *)
From Verif Require Import Base Fs.

(** At a path there is nothing, a file with some content, or a directory. *)
Inductive seen (C : Type) :=
| Nothing
| AFile (c : C)
| ADir.
Arguments Nothing {C}.
Arguments AFile {C} c.
Arguments ADir {C}.

Definition see {C} (n : node C) (p : path) : seen C :=
  match lookup n p with
  | None => Nothing
  | Some (File c) => AFile c
  | Some (Dir _) => ADir
  end.

(** [q] is [p] itself or something below it. *)
Definition at_or_below (p q : path) : Prop := exists r, q = p ++ r.

(** [q] is [p] itself or one of the directories leading to it. *)
Definition at_or_above (p q : path) : Prop := exists r, p = q ++ r.

(** The same things can be seen in both file systems. *)
Definition same_fs {C} (n m : node C) : Prop := forall q, see n q = see m q.
