(** Specification vocabulary for attributes and populations. *)
From Verif Require Import Base.

(** A cell that can be added: a number or NaN. *)
Definition numeric (v : val) : Prop := match v with VNum _ | VNA => True | _ => False end.

(** Sum of the numbers listed for member [k] (NaN counts for nothing). *)
Definition total (k : val) (pairs : list (val * val)) : Qc :=
  fold_right (fun p acc => match p with
                           | (k', VNum x) => if val_eqb k' k then (x + acc)%Qc else acc
                           | _ => acc
                           end) (Q2Qc 0) pairs.

(** Value of the last pair of [l] for key [k]. *)
Fixpoint last_value {V} (k : val) (l : list (val * V)) : option V :=
  match l with
  | [] => None
  | (k', v) :: l' => match last_value k l' with
                     | Some v' => Some v'
                     | None => if val_eqb k' k then Some v else None
                     end
  end.
