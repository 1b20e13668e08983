(** Model of /repo/trumania/core/util_functions.py *)
From Coq Require Import DecimalString.
From Verif Require Import Base BaseFacts Rng.

(** ** Dictionaries *)

(** util_functions.py:92-104 merged_value *)
Definition merged_value {K V} `{EqK K} (f : option (V -> V -> V)) (d1 d2 : dict K V) (key : K)
  : result V :=
  match dget key d1, dget key d2 with
  | None, Some v2 => Ok v2
  | None, None => Err KeyError
  | Some v1, None => Ok v1
  | Some v1, Some v2 => match f with None => Err ValueError | Some g => Ok (g v1 v2) end
  end.

(** util_functions.py:106-108: the merged dictionary lists the keys in the
    iteration order [keys] of the set union, which depends on hashing. *)
Definition merge_2_dicts_ord {K V} `{EqK K} (keys : list K) (f : option (V -> V -> V))
    (d1 d2 : dict K V) : result (dict K V) :=
  mapr (fun key => let! v := merged_value f d1 d2 key in Ok (key, v)) keys.

(** One particular iteration order of [set(d1) | set(d2)]. *)
Definition union_keys {K V} `{EqK K} (d1 d2 : dict K V) : list K :=
  dkeys d1 ++ filter (fun k => negb (dmem k d1)) (dkeys d2).

(** util_functions.py:74-108 merge_2_dicts (None is Python's None).
    Simplification: the iteration order is fixed to [union_keys]; order
    independence is treated by theorems about [merge_2_dicts_ord]. *)
Definition merge_2_dicts {K V} `{EqK K} (od1 od2 : option (dict K V)) (f : option (V -> V -> V))
  : result (dict K V) :=
  match od1, od2 with
  | None, None => Ok []
  | Some d1, None => Ok d1
  | None, Some d2 => Ok d2
  | Some d1, Some d2 => merge_2_dicts_ord (union_keys d1 d2) f d1 d2
  end.

(** util_functions.py:115-132 merge_dicts: {} for no dictionary, otherwise
    functools.reduce from the left. *)
Definition merge_dicts {K V} `{EqK K} (ds : list (dict K V)) (f : option (V -> V -> V))
  : result (dict K V) :=
  match ds with
  | [] => Ok []
  | d :: ds' =>
      fold_left (fun acc d2 => let! d1 := acc in merge_2_dicts (Some d1) (Some d2) f) ds' (Ok d)
  end.

(** ** Ids *)

(** str(int) *)
Definition str_of_Z (z : Z) : string := NilZero.string_of_int (Z.to_int z).

Fixpoint zeros (n : nat) (s : string) : string :=
  match n with 0 => s | S n' => String "0"%char (zeros n' s) end.

(** str.zfill(width): zeros are inserted after a leading sign. *)
Definition zfill (width : nat) (s : string) : string :=
  let pad := width - String.length s in
  match s with
  | String "-"%char s' => String "-"%char (zeros pad s')
  | _ => zeros pad s
  end.

(** util_functions.py:147-152 build_ids; np.arange(id_start, id_start+size)
    is empty when size <= 0. *)
Definition build_ids (size id_start : Z) (prefix : string) (max_length : nat) : list string :=
  map (fun k => (prefix ++ zfill max_length (str_of_Z (id_start + Z.of_nat k)))%string)
      (seq 0 (Z.to_nat size)).

(** ** Capping *)

Fixpoint zsum (l : list Z) : Z := match l with [] => 0%Z | x :: l' => (x + zsum l')%Z end.

(** util_functions.py:163-177 cap_to_total, on the reversed list ([values[-1]]
    is the head of the reversed list; values[-1] of [] raises IndexError). *)
Fixpoint cap_rev (rvalues : list Z) (target_total : Z) : result (list Z) :=
  let excedent := (zsum rvalues - target_total)%Z in
  if (excedent <=? 0)%Z then Ok rvalues
  else match rvalues with
       | [] => Err IndexError
       | lst :: init =>
           if (excedent <=? lst)%Z then Ok ((lst - excedent)%Z :: init)
           else let! r := cap_rev init target_total in Ok (0%Z :: r)
       end.

Definition cap_to_total (values : list Z) (target_total : Z) : result (list Z) :=
  rmap (@rev Z) (cap_rev (rev values) target_total).

(** ** Loops *)

(** A while loop run for at most [fuel] iterations; still looping afterwards
    is reported as [Diverges]. *)
Fixpoint while_fuel {S : Type} (fuel : nat) (cond : S -> bool) (body : S -> S) (s : S) : result S :=
  match fuel with
  | 0 => if cond s then Err Diverges else Ok s
  | Datatypes.S fuel' => if cond s then while_fuel fuel' cond body (body s) else Ok s
  end.

(** util_functions.py:204-225 latest_date_before, with loop bound [fuel]. *)
Definition latest_date_before_fuel (fuel : nat) (starting_date upper_bound time_step : Z) : result Z :=
  let! result := while_fuel fuel (fun r => upper_bound <? r)%Z (fun r => r - time_step)%Z starting_date in
  while_fuel fuel (fun r => time_step <=? upper_bound - r)%Z (fun r => r + time_step)%Z result.

(** Enough iterations for every terminating call (see
    [latest_date_before_total] and [latest_date_before_diverges]). *)
Definition latest_date_before (starting_date upper_bound time_step : Z) : result Z :=
  latest_date_before_fuel (S (Z.to_nat (Z.abs (upper_bound - starting_date) / time_step + 1)))
    starting_date upper_bound time_step.

(** ** Random data *)

(** util_functions.py:14-49 make_random_bipartite_data.
    [edges] are the edges networkx drew, numbered as networkx does (group2
    nodes from len(group1) on).  On a graph without edges,
    [bp.apply(..., axis=1)] of the empty frame returns a 2-column frame and
    the assignment [bp["from"] = ...] raises ValueError. *)
Definition make_random_bipartite_data {A B} (group1 : list A) (group2 : list B) (p : Q)
    (edges : list (nat * nat)) : result (list (A * B)) :=
  if (length group1 =? 0) || (length group2 =? 0) || Qeq_bool p 0 then Ok []
  else match edges with
       | [] => Err ValueError
       | _ =>
         mapr (fun e =>
                 match nth_error group1 (fst e), nth_error group2 (snd e - length group1) with
                 | Some a, Some b => Ok (a, b)
                 | _, _ => Err IndexError
                 end) edges
       end.

(** util_functions.py:66-71 make_random_assign *)
Definition make_random_assign {A B} (set1 : list A) (set2 : list B) (r : rng)
  : result (list (A * B) * rng) :=
  let! (idx, r') := choice (length set2) (length set1) r in
  let! chosen := take idx set2 in
  Ok (combine set1 chosen, r').

Fixpoint rand_rows (n m : nat) (r : rng) : list (list Q) * rng :=
  match n with
  | 0 => ([], r)
  | S n' => let (row, r1) := draws uniform m r in
            let (rows, r2) := rand_rows n' m r1 in (row :: rows, r2)
  end.

(** util_functions.py:52-63 assign_random_proportions: rows (a, b, weight);
    None is the NaN obtained when a row of draws sums to 0.
    (DataFrame.stack drops NaN, hence such rows are absent.) *)
Definition assign_random_proportions {A B} (group1 : list A) (group2 : list B) (r : rng)
  : list (A * B * Q) :=
  let (assignments, _) := rand_rows (length group1) (length group2) r in
  flat_map (fun '(a, row) =>
              let s := qsum row in
              if Qeq_bool s 0 then []
              else map (fun '(b, x) => (a, b, (x / s)%Q)) (combine group2 row))
           (combine group1 assignments).
