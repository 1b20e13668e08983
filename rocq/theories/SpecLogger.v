(** Specification vocabulary for loggers built from shared lists. *)
From Verif Require Import Base World Ops Logger.

(** The lists given to the constructors are among the [n] lists of the caller. *)
Definition lists_below (n : nat) (a : logger_args) : Prop :=
  (forall r, la_cols a = AList r -> r < n) /\ (forall r, la_exploded a = AList r -> r < n).

(** No list is given both as columns and as exploded columns. *)
Definition separate (l : list logger_args) : Prop :=
  forall a b r, In a l -> In b l -> la_exploded a = AList r -> la_cols b <> AList r.

(** The exploded columns of the loggers which were given the list [r] as columns. *)
Definition added (h : heap) (l : list logger_args) (r : nat) : list string :=
  flat_map (fun a => match la_cols a with
                     | AList r' => if Nat.eqb r' r then given h (la_exploded a) else []
                     | _ => []
                     end) l.

(** The logger its arguments describe: the columns, then the exploded columns. *)
Definition described (h : heap) (a : logger_args) : op :=
  OpFieldLogger (la_id a) (given h (la_cols a) ++ given h (la_exploded a)) (given h (la_exploded a)).
