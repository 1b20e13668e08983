(** numpy.random.RandomState as an arbitrary tape of raw values.

    Models the contract (argument checks and support of the outcome) of the
    RandomState methods used by /repo: choice, permutation, uniform, rand,
    randint, beta.  The mapping from raw values to outcomes is a
    simplification: every outcome numpy may produce is produced by some tape
    and every tape yields an outcome numpy may produce.  Because all theorems
    quantify over the tape, nothing depends on Mersenne-Twister. *)
From Verif Require Import Base BaseFacts.

Record rng := mkRng { tape : nat -> N; pos : nat }.

(** RandomState(seed) for a given family of streams (the only thing kept of
    seeding is that equal seeds give equal streams). *)
Definition prng := N -> nat -> N.
Definition random_state (g : prng) (seed : N) : rng := mkRng (g seed) 0.

Definition next_raw (r : rng) : N * rng := (tape r (pos r), mkRng (tape r) (S (pos r))).

Definition two53 : positive := Pos.shiftl 1 53.

(** RandomState.uniform() / rand(): multiples of 2^-53 in [0,1). *)
Definition uniform (r : rng) : Q * rng :=
  let (x, r') := next_raw r in (Z.of_N (x mod (Npos two53)) # two53, r').

(** RandomState.beta(1, b): a float in [0,1] (both ends possible after rounding). *)
Definition beta (r : rng) : Q * rng :=
  let (x, r') := next_raw r in (Z.of_N (x mod (N.succ (Npos two53))) # two53, r').

(** One integer of [0, n), n > 0. *)
Definition randint (n : nat) (r : rng) : nat * rng :=
  let (x, r') := next_raw r in (N.to_nat (x mod (N.of_nat n)), r').

Fixpoint draws {A} (f : rng -> A * rng) (n : nat) (r : rng) : list A * rng :=
  match n with
  | 0 => ([], r)
  | S n' => let (x, r1) := f r in let (xs, r2) := draws f n' r1 in (x :: xs, r2)
  end.

(** RandomState.choice(n, size) with replacement, p=None. *)
Definition choice (n size : nat) (r : rng) : result (list nat * rng) :=
  if (n =? 0) && negb (size =? 0) then Err ValueError
  else Ok (draws (randint n) size r).

Fixpoint remove_nth {A} (i : nat) (l : list A) : list A :=
  match l, i with
  | [], _ => []
  | _ :: l', 0 => l'
  | x :: l', S i' => x :: remove_nth i' l'
  end.

(** RandomState.permutation(l). *)
Fixpoint shuffle {A} (n : nat) (l : list A) (r : rng) : list A * rng :=
  match n with
  | 0 => ([], r)
  | S n' =>
      let (i, r1) := randint (length l) r in
      match nth_error l i with
      | None => ([], r1)
      | Some x => let (xs, r2) := shuffle n' (remove_nth i l) r1 in (x :: xs, r2)
      end
  end.
Definition permutation {A} (l : list A) (r : rng) : list A * rng := shuffle (length l) l r.

(** RandomState.choice(range(n), size, replace=False), p=None:
    permutation(n)[:size]. *)
Definition choice_norep (n size : nat) (r : rng) : result (list nat * rng) :=
  if n <? size then Err ValueError
  else let (xs, r') := permutation (seq 0 n) r in Ok (firstn size xs, r').

Fixpoint cumsum (acc : Q) (l : list Q) : list Q :=
  match l with
  | [] => []
  | x :: l' => (acc + x)%Q :: cumsum (acc + x)%Q l'
  end.

Definition Qltb (a b : Q) : bool := negb (Qle_bool b a).

(** np.searchsorted on a non-decreasing array, side="right" / "left". *)
Fixpoint search_right (cdf : list Q) (u : Q) : nat :=
  match cdf with
  | [] => 0
  | c :: cs => if Qle_bool c u then S (search_right cs u) else 0
  end.
Fixpoint search_left (cdf : list Q) (u : Q) : nat :=
  match cdf with
  | [] => 0
  | c :: cs => if Qltb c u then S (search_left cs u) else 0
  end.

(** None (= NaN) anywhere raises ValueError, as RandomState.choice does. *)
Fixpoint no_nan (p : list (option Q)) : result (list Q) :=
  match p with
  | [] => Ok []
  | None :: _ => Err ValueError
  | Some q :: p' => let! qs := no_nan p' in Ok (q :: qs)
  end.

Definition choice_p_one (p : list Q) (r : rng) : nat * rng :=
  let (u, r') := uniform r in (search_right (cumsum 0 p) u, r').

(** RandomState.choice(range(n), size, p=p), with replacement.
    Checks in numpy's order: empty population, length, NaN, negative, sum. *)
Definition choice_p (n size : nat) (p : list (option Q)) (r : rng) : result (list nat * rng) :=
  if (n =? 0) && negb (size =? 0) then Err ValueError
  else if negb (length p =? n) then Err ValueError
  else let! qs := no_nan p in
       if existsb (fun q => Qltb q 0) qs then Err ValueError
       else if negb (Qeq_bool (qsum qs) 1) then Err ValueError
       else Ok (draws (choice_p_one qs) size r).
