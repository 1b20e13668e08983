(** Small specification vocabulary for relationships, used by the property theorems.
    Nothing here depends on how the code computes; it only says what is stored and which
    states an API user can reach. *)
From Verif Require Import Base BaseFacts Rng Utils Relationship.

(** The relations held by a relationship, as (from, to, weight) triples; meaningful up to
    permutation. *)
Definition stored (r : relationship) : list (val * val * Q) :=
  flat_map (fun kv => map (fun tw => (fst kv, fst tw, snd tw))
                          (combine (to_ids (snd kv)) (weights (snd kv)))) (grouped r).

(** Every state reachable through the public API, whatever the seed and the random draws. *)
Inductive reachable : relationship -> Prop :=
| reach_new g seed : reachable (new_relationship g seed)
| reach_add r froms tos w r' :
    reachable r -> add_relations r froms tos w = Ok r' -> reachable r'
| reach_add_grouped r froms lists r' :
    reachable r -> add_grouped_relations r froms lists = Ok r' -> reachable r'
| reach_remove r froms tos r' :
    reachable r -> remove_relations r froms tos = Ok r' -> reachable r'
| reach_select_one r froms pop discard oto ov rows r' :
    reachable r -> select_one r froms pop discard oto ov = Ok (rows, r') -> reachable r'
| reach_select_many r reqs pop discard rows r' :
    reachable r -> select_many r reqs pop discard = Ok (rows, r') -> reachable r'.

(** [f] has a relation to [t]; [f] has no relation at all. *)
Definition related (r : relationship) (f t : val) : Prop := exists w, In (f, t, w) (stored r).
Definition isolated (r : relationship) (f : val) : Prop := forall t, ~ related r f t.

(** The lines (from_i, to_i, weight_i) of three columns of equal length. *)
Fixpoint lines3 (froms tos : list val) (ws : list Q) : list (val * val * Q) :=
  match froms, tos, ws with
  | f :: froms', t :: tos', w :: ws' => (f, t, w) :: lines3 froms' tos' ws'
  | _, _, _ => []
  end.

(** ids are all strings, or none is (numpy keeps such columns as they are) *)
Definition homogeneous (r : relationship) : Prop :=
  (forall f t w, In (f, t, w) (stored r) -> is_str f = true /\ is_str t = true) \/
  (forall f t w, In (f, t, w) (stored r) -> is_str f = false /\ is_str t = false).

Definition no_na_tos (r : relationship) : Prop := forall f t w, In (f, t, w) (stored r) -> t <> VNA.

(** The rows (index, from, to) of a selection that hold a selected relation, as (from, to). *)
Definition sold (rows : list (val * val * val)) : list (val * val) :=
  flat_map (fun '(_, f, t) => if is_na t then [] else [(f, t)]) rows.

(** A history of additions and of one-to-one sales (select_one with pop). *)
Inductive event :=
| Supply (froms tos : list val) (w : weights_arg)
| Sale (reqs : list (val * val)) (discard : bool).

(** [history r es added sold r']: the events [es] lead from [r] to [r'], adding the pairs
    [added] and selling the pairs [gone]. *)
Inductive history : relationship -> list event -> list (val * val) -> list (val * val)
                    -> relationship -> Prop :=
| h_nil r : history r [] [] [] r
| h_supply r froms tos w r1 es added gone r' :
    length tos = length froms -> length (weights_list (length froms) w) = length froms ->
    ~ In VNA tos ->
    add_relations r froms tos w = Ok r1 ->
    history r1 es added gone r' ->
    history r (Supply froms tos w :: es) (combine froms tos ++ added) gone r'
| h_sale r reqs discard rows r1 es added gone r' :
    select_one r (Some reqs) true discard true None = Ok (rows, r1) ->
    history r1 es added gone r' ->
    history r (Sale reqs discard :: es) added (sold rows ++ gone) r'.

(** What a select_many result gives to the request of index [i]. *)
Fixpoint given_to (i : val) (rows : list (val * list val)) : list val :=
  match rows with
  | [] => []
  | (j, l) :: rows' => if keqb i j then l else given_to i rows'
  end.

(** The [to] ids stored for a from, with repetitions. *)
Definition tos_stored (r : relationship) (f : val) : list val :=
  map (fun x => snd (fst x)) (filter (fun x => keqb (fst (fst x)) f) (stored r)).

Definition requests_from (f : val) (reqs : list req) : list req :=
  filter (fun q => keqb (q_from q) f) reqs.
