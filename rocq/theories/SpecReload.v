(** Specification vocabulary for reading the log files back. *)
From Verif Require Import Base Frame.

(** Column names which can head a file: pairwise distinct, none empty. *)
Definition plain_names (cols : list string) : Prop := NoDup cols /\ ~ In ""%string cols.

(** The cells of the [j]-th column. *)
Definition cells (j : nat) (rows : list (list val)) : list val := map (fun r => nth j r VNA) rows.
