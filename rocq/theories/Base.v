(** Base vocabulary shared by all parts of the model: Python exceptions as
    values, scalar cells, insertion-ordered dictionaries, numpy's sort. *)
From Coq Require Export ZArith QArith Qcanon String Ascii Bool Lia Permutation Sorted List.
From Coq Require Export Wf_nat.
Export ListNotations.
Open Scope list_scope.
Open Scope nat_scope.

(** ** Exceptions (Python exception classes raised by the modelled code).
    [Diverges] stands for a loop that never terminates, [Unmodelled] for an
    input outside the domain this model covers (never claimed about). *)
Inductive exn :=
| KeyError | ValueError | TypeError | AssertionError | AttributeError
| IndexError | OSError | ZeroDivisionError | Diverges | Unmodelled.

Inductive result (A : Type) : Type :=
| Ok (a : A)
| Err (e : exn).
Arguments Ok {A} a.
Arguments Err {A} e.

Definition bind {A B} (r : result A) (f : A -> result B) : result B :=
  match r with Ok a => f a | Err e => Err e end.

Definition rmap {A B} (f : A -> B) (r : result A) : result B :=
  match r with Ok a => Ok (f a) | Err e => Err e end.

Declare Scope res_scope.
Notation "'let!' x ':=' e 'in' k" := (bind e (fun x => k))
  (at level 200, x pattern, e at level 100, k at level 200, right associativity) : res_scope.
Open Scope res_scope.

Definition is_ok {A} (r : result A) : bool :=
  match r with Ok _ => true | Err _ => false end.

(** Sequential map with exceptions: the first exception wins. *)
Fixpoint mapr {A B} (f : A -> result B) (l : list A) : result (list B) :=
  match l with
  | [] => Ok []
  | x :: l' => let! y := f x in let! ys := mapr f l' in Ok (y :: ys)
  end.

(** ** Cells of dataframes and elements of series.
    Simplification: Python ints and floats are both exact rationals (no
    rounding, no int/float distinction); every NaN/None/NaT is [VNA]. *)
Inductive val :=
| VNA
| VBool (b : bool)
| VNum (q : Qc)
| VStr (s : string)
| VList (l : list val).

Definition vz (z : Z) : val := VNum (Q2Qc (inject_Z z)).
Definition vnat (n : nat) : val := vz (Z.of_nat n).
Definition vq (q : Q) : val := VNum (Q2Qc q).

Definition bool_cmp (a b : bool) : comparison :=
  match a, b with
  | true, true | false, false => Eq
  | false, true => Lt
  | true, false => Gt
  end.

Definition ascii_cmp (a b : ascii) : comparison := N.compare (N_of_ascii a) (N_of_ascii b).

Fixpoint string_cmp (a b : string) : comparison :=
  match a, b with
  | EmptyString, EmptyString => Eq
  | EmptyString, _ => Lt
  | _, EmptyString => Gt
  | String x a', String y b' =>
      match ascii_cmp x y with Eq => string_cmp a' b' | c => c end
  end.

(** Total order on cells, used wherever numpy/pandas sorts labels
    (argsort, groupby, Index.union, Index.difference, np.unique).
    Simplification: numpy cannot sort mixed types; the model orders them by
    kind. On homogeneous labels this is the numeric resp. lexicographic
    order. *)
Fixpoint val_cmp (a b : val) {struct a} : comparison :=
  match a, b with
  | VNA, VNA => Eq
  | VNA, _ => Lt
  | _, VNA => Gt
  | VBool x, VBool y => bool_cmp x y
  | VBool _, _ => Lt
  | _, VBool _ => Gt
  | VNum x, VNum y => Qccompare x y
  | VNum _, _ => Lt
  | _, VNum _ => Gt
  | VStr x, VStr y => string_cmp x y
  | VStr _, _ => Lt
  | _, VStr _ => Gt
  | VList l, VList m =>
      (fix go (l m : list val) {struct l} : comparison :=
         match l, m with
         | [], [] => Eq
         | [], _ :: _ => Lt
         | _ :: _, [] => Gt
         | x :: l', y :: m' =>
             match val_cmp x y with Eq => go l' m' | c => c end
         end) l m
  end.

Definition val_eqb (a b : val) : bool :=
  match val_cmp a b with Eq => true | _ => false end.

Definition val_leb (a b : val) : bool :=
  match val_cmp a b with Gt => false | _ => true end.

Definition is_na (v : val) : bool := match v with VNA => true | _ => false end.

(** ** Keys: decidable equality used by dictionaries, indices and sets. *)
Class EqK (K : Type) := {
  keqb : K -> K -> bool;
  keqb_eq : forall a b, keqb a b = true <-> a = b
}.
Arguments keqb : simpl never.

Definition mem {K} `{EqK K} (k : K) (l : list K) : bool := existsb (keqb k) l.

(** ** Python dictionaries: association lists in insertion order. *)
Definition dict (K V : Type) := list (K * V).

Definition dkeys {K V} (d : dict K V) : list K := map fst d.

Fixpoint dget {K V} `{EqK K} (k : K) (d : dict K V) : option V :=
  match d with
  | [] => None
  | (k', v) :: d' => if keqb k k' then Some v else dget k d'
  end.

(** [d[k] = v]: overwrite in place, or append. *)
Fixpoint dset {K V} `{EqK K} (k : K) (v : V) (d : dict K V) : dict K V :=
  match d with
  | [] => [(k, v)]
  | (k', v') :: d' => if keqb k k' then (k, v) :: d' else (k', v') :: dset k v d'
  end.

(** [del d[k]] *)
Definition ddel {K V} `{EqK K} (k : K) (d : dict K V) : dict K V :=
  filter (fun kv => negb (keqb k (fst kv))) d.

Definition dmem {K V} `{EqK K} (k : K) (d : dict K V) : bool :=
  match dget k d with Some _ => true | None => false end.

(** Unique elements in order of first appearance ([Series.unique],
    [drop_duplicates(keep="first")], [dict.fromkeys]). *)
Fixpoint uniq {K} `{EqK K} (l : list K) : list K :=
  match l with
  | [] => []
  | x :: l' => x :: filter (fun y => negb (keqb x y)) (uniq l')
  end.

Fixpoint nodupb {K} `{EqK K} (l : list K) : bool :=
  match l with
  | [] => true
  | x :: l' => negb (mem x l') && nodupb l'
  end.

(** ** Stable insertion sort w.r.t. a boolean order, for [argsort] & co.
    (numpy's default quicksort is not stable; theorems about its clients are
    stated up to permutation.) *)
Section Sort.
  Context {A : Type} (leb : A -> A -> bool).
  Fixpoint insert (x : A) (l : list A) : list A :=
    match l with
    | [] => [x]
    | y :: l' => if leb x y then x :: l else y :: insert x l'
    end.
  Fixpoint isort (l : list A) : list A :=
    match l with
    | [] => []
    | x :: l' => insert x (isort l')
    end.
End Sort.

(** ** Numeric helpers *)
Fixpoint qsum (l : list Q) : Q := match l with [] => 0%Q | q :: l' => (q + qsum l')%Q end.
Fixpoint nsum (l : list nat) : nat := match l with [] => 0 | n :: l' => n + nsum l' end.

(** Position-wise deletion: [np.delete(l, idxs)] (each position once). *)
Fixpoint delete_from {A} (i : nat) (idxs : list nat) (l : list A) : list A :=
  match l with
  | [] => []
  | x :: l' =>
      if existsb (Nat.eqb i) idxs
      then delete_from (S i) idxs l'
      else x :: delete_from (S i) idxs l'
  end.
Definition np_delete {A} (idxs : list nat) (l : list A) : list A := delete_from 0 idxs l.

(** Fancy indexing [l[idxs]]; out-of-range positions raise [IndexError]. *)
Definition take {A} (idxs : list nat) (l : list A) : result (list A) :=
  mapr (fun i => match nth_error l i with Some x => Ok x | None => Err IndexError end) idxs.

(** Consecutive pieces of given lengths ([itertools.islice] on a shared iterator). *)
Fixpoint slices {A} (sizes : list nat) (l : list A) : list (list A) :=
  match sizes with
  | [] => []
  | n :: sizes' => firstn n l :: slices sizes' (skipn n l)
  end.

Fixpoint string_of_list (l : list ascii) : string :=
  match l with [] => EmptyString | c :: l' => String c (string_of_list l') end.
