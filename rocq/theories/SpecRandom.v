(** Specification vocabulary for random choices: what "with probability p" means for a
    source of random numbers that has 2^53 equally likely outcomes. *)
From Verif Require Import Base Rng Utils Relationship SpecRelationship Frame Gens Clock Attribute World.

(** Exactly [n] integers satisfy [P]. *)
Definition number_of (P : Z -> Prop) (n : Z) : Prop :=
  exists l, NoDup l /\ (forall k, In k l <-> P k) /\ Z.of_nat (length l) = n.

(** numpy draws one of the 2^53 numbers k / 2^53 in [0, 1), all equally likely.
    [chances P n]: [n] of them satisfy [P]. *)
Definition chances (P : Q -> Prop) (n : Z) : Prop :=
  number_of (fun k => (0 <= k < Zpos two53)%Z /\ P (k # two53)%Q) n.

(** The [k]-th random number still to come from a source. *)
Definition coming (r : rng) (k : nat) : Q := (Z.of_N (tape r (pos r + k) mod Npos two53) # two53)%Q.

(** The source [r'] is the source [r] after [n] numbers were drawn. *)
Definition drawn (n : nat) (r r' : rng) : Prop := r' = mkRng (tape r) (pos r + n).

(** The weights [ws] laid end to end; a number of [0, 1) designates the weight it falls on
    once scaled to their total. *)
Definition designates (ws : list Q) (u : Q) (i : nat) : Prop :=
  (qsum (firstn i ws) <= u * qsum ws /\ u * qsum ws < qsum (firstn (S i) ws))%Q.

(** Weights among which one can choose. *)
Definition proper_weights (ws : list Q) : Prop :=
  (forall w, In w ws -> (0 <= w)%Q) /\ (0 < qsum ws)%Q.

(** Total weight, and number, of the entries [t] of a weighted list. *)
Fixpoint weight_of (t : val) (l : list (val * Q)) : Q :=
  match l with
  | [] => 0%Q
  | (t', w) :: l' => if keqb t t' then (w + weight_of t l')%Q else weight_of t l'
  end.
Fixpoint entries_of (t : val) (l : list (val * Q)) : Z :=
  match l with
  | [] => 0%Z
  | (t', _) :: l' => if keqb t t' then (1 + entries_of t l')%Z else entries_of t l'
  end.

(** The number [u] selects [t] in the weighted list [l]. *)
Definition selects (l : list (val * Q)) (u : Q) (t : val) : Prop :=
  exists i, designates (map snd l) u i /\ nth_error (map fst l) i = Some t.

(** The weights in force: those of the entries, or those given by the caller. *)
Definition weighted (ov : option (dict val Q)) (l : list (val * Q)) : list (val * Q) :=
  match ov with
  | None => l
  | Some d => map (fun tw => (fst tw, match dget (fst tw) d with Some w => w | None => 0%Q end)) l
  end.

(** What a relationship stores for one from id, in order. *)
Definition stored_from (r : relationship) (f : val) : list (val * Q) :=
  map (fun x => (snd (fst x), snd x)) (filter (fun x => keqb (fst (fst x)) f) (stored r)).

(** Number of the given requests (index, from) whose from id has several relations: the others
    need no random number. *)
Fixpoint undecided (r : relationship) (reqs : list (val * val)) : nat :=
  match reqs with
  | [] => 0
  | (_, f) :: reqs' => (if 2 <=? length (tos_stored r f) then 1 else 0) + undecided r reqs'
  end.

(** Generators that produce one value after the other, each call going on where the previous one
    stopped: all but fixed lists (which know one size), phone numbers (sampled per call) and
    transformations of whole batches.  A derived generator is created after its parent. *)
Inductive streaming (h : list gen) : nat -> Prop :=
| str_const i v : nth_error h i = Some (GConst v) -> streaming h i
| str_numpy i m st b : nth_error h i = Some (GNumpy m st b) -> streaming h i
| str_pareto i x f l st : nth_error h i = Some (GPareto x f l st) -> streaming h i
| str_seq i c p w : nth_error h i = Some (GSeq c p w) -> streaming h i
| str_oracle i vs k : nth_error h i = Some (GOracle vs k) -> streaming h i
| str_map i parent f : nth_error h i = Some (GMap parent (MapElem f)) -> parent < i ->
    streaming h parent -> streaming h i.

(** The weights [ws] laid end to end and scaled to [0, 1]: the share [x] of the total is reached
    within weight [b]. *)
Definition reached_in (ws : list Q) (x : Q) (b : nat) : Prop :=
  (b = 0 \/ (qsum (firstn b ws) < x * qsum ws)%Q) /\ (x * qsum ws <= qsum (firstn (S b) ws))%Q.

(** Number of activities in (0, 2] among the given ones. *)
Fixpoint low_ones (obs : list (val * Q)) : nat :=
  match obs with
  | [] => 0
  | (_, a) :: obs' => (if is_low a then 1 else 0) + low_ones obs'
  end.

(** Sum of [f 0], ..., [f (n-1)]. *)
Fixpoint total (f : nat -> Q) (n : nat) : Q := match n with 0 => 0%Q | S n' => (total f n' + f n')%Q end.

(** The timer generator [y] about to use the random numbers of [st]. *)
Definition fed_with (y : cyclic) (st : rng) : cyclic := mkCyclic (y_config y) st (y_bins y) (y_profile y).

(** The average of [f 0], ..., [f (n-1)]. *)
Definition average (f : nat -> Q) (n : nat) : Q := (total f n / inject_Z (Z.of_nat n))%Q.

(** Those of the members [ids] that are in another state than "default", in order. *)
Definition away (s : story) (ids : list val) : list val :=
  filter (fun i => existsb (fun x => keqb (fst x) i && negb (keqb (fst (snd x)) "default"%string)) (st_timer s)) ids.
