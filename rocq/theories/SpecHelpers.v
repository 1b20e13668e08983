(** Specification vocabulary for the functions usable in Apply. *)
From Coq Require Import Reals.
From Verif Require Import Base.

(** A total order and its boolean [<]. *)
Record order {A} (le : A -> A -> Prop) (lt : A -> A -> bool) : Prop := mkOrder {
  ord_trans : forall a b c, le a b -> le b c -> le a c;
  ord_total : forall a b, le a b \/ le b a;
  ord_lt : forall a b, lt a b = false <-> le b a }.
Arguments ord_trans {A le lt}.
Arguments ord_total {A le lt}.
Arguments ord_lt {A le lt}.

(** Between the bounds given. *)
Definition within {A} (le : A -> A -> Prop) (lb ub : option A) (v : A) : Prop :=
  (forall l, lb = Some l -> le l v) /\ (forall u, ub = Some u -> le v u).
Definition strictly_within {A} (lt : A -> A -> bool) (lb ub : option A) (v : A) : Prop :=
  match lb with Some l => lt l v = true | None => True end /\
  match ub with Some u => lt v u = true | None => True end.

(** A cumulative distribution function on [0,1]. *)
Definition unit_cdf (F : R -> R) : Prop :=
  F 0%R = 0%R /\ F 1%R = 1%R /\ forall x y, (0 <= x)%R -> (x <= y)%R -> (y <= 1)%R -> (F x <= F y)%R.
