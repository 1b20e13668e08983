(** Model of FieldLogger.__init__ with the lists it is given, /repo/trumania/core/operations.py:81-104.
    Python lists are objects: [self.cols += self.exploded_cols] extends the caller's own list.  The model in
    Ops.v gives each logger a copy; here the lists live in a heap and the loggers hold addresses. *)
From Verif Require Import Base BaseFacts Rng Utils Relationship Frame Gens Clock Attribute World Ops.

Definition heap := list (list string).

(** An argument: None, a text, or a list object. *)
Inductive arg := ANone | AText (s : string) | AList (r : nat).
Definition content (h : heap) (r : nat) : list string := nth r h [].
Definition given (h : heap) (a : arg) : list string :=
  match a with ANone => [] | AText s => [s] | AList r => content h r end.

(** operations.py:94-97 and 99-102: a new list unless a list was given *)
Definition resolve (h : heap) (a : arg) : heap * nat :=
  match a with
  | AList r => (h, r)
  | _ => (h ++ [given h a], length h)
  end.
(** a += b on list objects *)
Definition extend (h : heap) (a b : nat) : heap := set_nth a (content h a ++ content h b) h.

(** The arguments of a call of the constructor, and the object it builds. *)
Record logger_args := mkArgs { la_id : string; la_cols : arg; la_exploded : arg }.
Record logger := mkLogger { lg_id : string; lg_cols : nat; lg_exploded : nat }.

(** operations.py:81-104 __init__ *)
Definition new_logger (h : heap) (a : logger_args) : heap * logger :=
  let (h1, e) := resolve h (la_exploded a) in
  let (h2, c) := resolve h1 (la_cols a) in
  (extend h2 c e, mkLogger (la_id a) c e).
Fixpoint new_loggers (h : heap) (l : list logger_args) : heap * list logger :=
  match l with
  | [] => (h, [])
  | a :: l' => let (h1, x) := new_logger h a in
               let (h2, xs) := new_loggers h1 l' in (h2, x :: xs)
  end.

(** operations.py:106-129: what the logger does when it is called reads the lists as they then are *)
Definition logger_op (h : heap) (x : logger) : op :=
  OpFieldLogger (lg_id x) (content h (lg_cols x)) (content h (lg_exploded x)).
