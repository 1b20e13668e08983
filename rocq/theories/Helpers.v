(** Model of the functions of /repo/trumania/core/operations.py usable in Apply
    (lines 253-367).  Simplification: floats are real or rational numbers; no
    rounding, overflow or NaN. *)
From Coq Require Import Reals.
From Verif Require Import Base BaseFacts Frame.

(** Python's max(a, b) and min(a, b) for a boolean [<]: the first argument is
    returned unless the second one is strictly better. *)
Definition py_max {A} (lt : A -> A -> bool) (a b : A) : A := if lt a b then b else a.
Definition py_min {A} (lt : A -> A -> bool) (a b : A) : A := if lt b a then b else a.

(** operations.py:273-284 bound_value (None: no bound) *)
Definition bound_value {A} (lt : A -> A -> bool) (lb ub : option A) (value : A) : A :=
  let limited := match lb with None => value | Some l => py_max lt l value end in
  match ub with None => limited | Some u => py_min lt u limited end.

(** Python's [<] on the model's numbers and on real numbers *)
Definition ltQ (a b : Q) : bool := negb (Qle_bool b a).
Definition ltR (a b : R) : bool := if Rlt_dec a b then true else false.

(** operations.py:287-291 scale *)
Definition scale (factor value : R) : R := (value * factor)%R.

(** operations.py:294-317 logistic *)
Definition logistic (k x0 L x : R) : R :=
  let the_exp := Rmin (- k * (x - x0)) 10 in
  (L / (1 + exp the_exp))%R.

(** operations.py:320-363 bounded_sigmoid; [cdf] is scipy's
    stats.beta.cdf(., a=shape, b=shape), and sf is 1 - cdf. *)
Definition bounded_sigmoid (cdf : R -> R) (x_min x_max : R) (incrementing : bool) (x : R) : R :=
  let x_b := bound_value ltR (Some x_min) (Some x_max) x in
  let u := ((x_b - x_min) / (x_max - x_min))%R in
  if incrementing then cdf u else (1 - cdf u)%R.

(** Probability of at least [k] successes in [n] trials of probability [x]. *)
Fixpoint binomial_tail (n k : nat) (x : R) : R :=
  match k, n with
  | 0, _ => 1%R
  | S _, 0 => 0%R
  | S k', S n' => (x * binomial_tail n' k' x + (1 - x) * binomial_tail n' k x)%R
  end.

(** stats.beta.cdf(x, a, b) on [0,1] for positive integers a and b (identity of
    the regularised incomplete beta function; see PropHelpers.v for its
    derivative).  Other shapes have no closed form and are not modelled. *)
Definition beta_cdf (a b : nat) (x : R) : R := binomial_tail (a + b - 1) a x.

(** operations.py:256-270 copy_if.  DataFrame.where with a Series condition:
    rows whose condition is False become NaN.  A condition that is not boolean
    raises ValueError; a mix of booleans and other cells is not modelled. *)
Definition copy_if (d : df) : result df :=
  match df_cols d with
  | [condition_field; source_field] =>
      let! cond := get_col d condition_field in
      let! src := get_col d source_field in
      if forallb (fun kv => match snd kv with VBool _ => true | _ => false end) cond then
        Ok (mkDf ["result"%string]
              (map (fun cs => (fst (snd cs), [if val_eqb (snd (fst cs)) (VBool true) then snd (snd cs) else VNA]))
                   (combine cond src)))
      else if existsb (fun kv => match snd kv with VBool _ => true | _ => false end) cond then Err Unmodelled
      else Err ValueError
  | _ => Err ValueError
  end.

(** operations.py:247-250: f_args="series".  [f] gets the list of columns (their
    cells, top to bottom) and returns a column of the same length; as a function
    usable in [OpApply].  Simplification: f returns a Series having the index of
    its arguments; DataFrame({...}) of anything of another length is not
    modelled. *)
Definition series_f (f : list (list val) -> list val) (d : df) : result df :=
  let out := f (map (fun c => map (fun r => nth c (snd r) VNA) (df_rows d)) (seq 0 (length (df_cols d)))) in
  if length out =? df_len d then
    Ok (mkDf ["result"%string] (combine (df_index d) (map (fun v => [v]) out)))
  else Err Unmodelled.

(** operations.py:366-367 identity *)
Definition identity {A} (x : A) : A := x.
