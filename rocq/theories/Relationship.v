(** Model of /repo/trumania/core/relationship.py: Relations and Relationship.
    (The operations RelationshipOps are in World.v, persistence in Persist.v.) *)
From Verif Require Import Base BaseFacts Rng Utils.

(** relationship.py:19-32.  [normed] is weights / weights.sum(); None is the
    NaN/inf numpy yields when the sum is 0.  Simplification: numpy's unification
    of the dtype of to_ids (mixed ints and strings) is not modelled here. *)
Record relations := mkRelations {
  to_ids : list val;
  weights : list Q;
  weights_normed : list (option Q)
}.

Definition normalise (ws : list Q) : list (option Q) :=
  let s := qsum ws in
  map (fun w => if Qeq_bool s 0 then None else Some (w / s)%Q) ws.

(** relationship.py:29-32 Relations.__init__ *)
Definition new_relations (tos : list val) (ws : list Q) : relations :=
  mkRelations tos ws (normalise ws).

(** relationship.py:34-35 __len__ *)
Definition rel_len (r : relations) : nat := length (to_ids r).

(** itertools.groupby on the first component. *)
Fixpoint group_consecutive {V} (l : list (val * V)) : list (val * list V) :=
  match l with
  | [] => []
  | (k, v) :: l' =>
      match group_consecutive l' with
      | (k', vs) :: g => if keqb k k' then (k, v :: vs) :: g else (k, [v]) :: (k', vs) :: g
      | [] => [(k, [v])]
      end
  end.

(** The [weights] argument: a scalar (np.repeat) or an array.  relationship.py:55-58 *)
Inductive weights_arg := WScalar (q : Q) | WArray (ws : list Q).
Definition weights_list (n : nat) (w : weights_arg) : list Q :=
  match w with WScalar q => repeat q n | WArray ws => ws end.

(** relationship.py:41-69 Relations.from_tuples.  Fancy indexing with [order]
    raises IndexError when to_ids or weights is shorter than from_ids. *)
Definition from_tuples (from_ids tos : list val) (w : weights_arg) : result (dict val relations) :=
  let ws := weights_list (length from_ids) w in
  if (length tos <? length from_ids) || (length ws <? length from_ids) then Err IndexError
  else
    let ordered := isort (fun a b => val_leb (fst a) (fst b))
                     (combine from_ids (combine tos ws)) in
    Ok (map (fun g => (fst g, new_relations (map fst (snd g)) (map snd (snd g))))
            (group_consecutive ordered)).

(** relationship.py:71-77 plus *)
Definition rel_plus (a b : relations) : relations :=
  new_relations (to_ids a ++ to_ids b) (weights a ++ weights b).

(** positions of the true values *)
Fixpoint argwhere (i : nat) (l : list bool) : list nat :=
  match l with
  | [] => []
  | b :: l' => if b then i :: argwhere (S i) l' else argwhere (S i) l'
  end.

(** relationship.py:79-88 minus *)
Definition rel_minus (a b : relations) : relations :=
  let removed := argwhere 0 (map (fun t => mem t (to_ids b)) (to_ids a)) in
  new_relations (np_delete removed (to_ids a)) (np_delete removed (weights a)).

(** relationship.py:90-115 pick_one.  [overridden] is the Series
    overridden_to_weights as a dictionary. *)
Definition pick_one (rel : relations) (r : rng) (overridden : option (dict val Q))
  : result (option (nat * val) * rng) :=
  match to_ids rel with
  | [] => Ok (None, r)
  | [t] => Ok (Some (0, t), r)
  | _ =>
      let! proba :=
        match overridden with
        | None => Ok (weights_normed rel)
        | Some d =>
            let! ws := mapr (fun t => match dget t d with Some w => Ok w | None => Err KeyError end)
                            (to_ids rel) in
            Ok (normalise ws)
        end in
      let! (idxs, r') := choice_p (length (to_ids rel)) 1 proba r in
      match idxs with
      | idx :: _ =>
          match nth_error (to_ids rel) idx with
          | Some t => Ok (Some (idx, t), r')
          | None => Err IndexError
          end
      | [] => Err IndexError
      end
  end.

(** relationship.py:117-137 pick_many *)
Definition pick_many (rel : relations) (r : rng) (amount : nat)
  : result (list nat * list val * rng) :=
  let sample_size := Nat.min (length (to_ids rel)) amount in
  let! (indices, r') := choice_norep (length (to_ids rel)) sample_size r in
  let! tos := take indices (to_ids rel) in
  Ok (indices, tos, r').

(** relationship.py:139-143 remove_inplace *)
Definition remove_inplace (rel : relations) (removed : list nat) : relations :=
  let ws := np_delete removed (weights rel) in
  mkRelations (np_delete removed (to_ids rel)) ws (normalise ws).

(** relationship.py:146-151 *)
Record relationship := mkRelationship {
  r_seed : N;
  r_state : rng;
  grouped : dict val relations
}.

Definition new_relationship (g : prng) (seed : N) : relationship :=
  mkRelationship seed (random_state g seed) [].

Definition with_grouped (r : relationship) (d : dict val relations) : relationship :=
  mkRelationship (r_seed r) (r_state r) d.
Definition with_state (r : relationship) (s : rng) : relationship :=
  mkRelationship (r_seed r) s (grouped r).

(** relationship.py:153-161 add_relations *)
Definition add_relations (r : relationship) (from_ids tos : list val) (w : weights_arg)
  : result relationship :=
  let! d := from_tuples from_ids tos w in
  let! g := merge_2_dicts (Some (grouped r)) (Some d) (Some rel_plus) in
  Ok (with_grouped r g).

(** relationship.py:163-177 add_grouped_relations (zip stops at the shorter). *)
Fixpoint add_grouped_aux (r : relationship) (l : list (val * list val)) : result relationship :=
  match l with
  | [] => Ok r
  | (one_from, many_tos) :: l' =>
      let! r' := add_relations r (map (fun _ => one_from) many_tos) many_tos (WScalar 1) in
      add_grouped_aux r' l'
  end.
Definition add_grouped_relations (r : relationship) (from_ids : list val) (grouped_ids : list (list val))
  : result relationship := add_grouped_aux r (combine from_ids grouped_ids).

(** relationship.py:179-189 remove_relations *)
Definition remove_relations (r : relationship) (from_ids tos : list val) : result relationship :=
  let! d := from_tuples from_ids tos (WScalar 0) in
  let! g := merge_2_dicts (Some (grouped r)) (Some d) (Some rel_minus) in
  Ok (with_grouped r g).

(** ** get_relations *)

Definition is_str (v : val) : bool := match v with VStr _ => true | _ => false end.

(** str() of a numpy scalar, as numpy does when it turns numbers into strings.
    Simplification: non-integers are rendered as fractions. *)
Definition render_Qc (q : Qc) : string :=
  match Qden q with
  | 1%positive => str_of_Z (Qnum q)
  | d => (str_of_Z (Qnum q) ++ "/" ++ str_of_Z (Zpos d))%string
  end.
Definition np_str (v : val) : val :=
  match v with
  | VNum q => VStr (render_Qc q)
  | VBool true => VStr "True"
  | VBool false => VStr "False"
  | _ => v
  end.

(** np.array / np.hstack of the from, to and weight rows is one 2d array: as soon as
    one id is a string, every id is turned into a string.  relationship.py:205-216 *)
Definition np_unify (l : list (val * val * Q)) : list (val * val * Q) :=
  if existsb (fun '(f, t, _) => is_str f || is_str t) l
  then map (fun '(f, t, w) => (np_str f, np_str t, w)) l
  else l.

Definition rel_triples (gid : val) (rel : relations) : list (val * val * Q) :=
  map (fun '(t, w) => (gid, t, w)) (combine (to_ids rel) (weights rel)).

(** relationship.py:191-217 get_relations; rows (from, to, weight).
    The order of [set(_from_ids)] is fixed to first appearance. *)
Definition get_relations (r : relationship) (from_ids : option (list val)) : list (val * val * Q) :=
  let ids := match from_ids with None => dkeys (grouped r) | Some l => l end in
  np_unify
    (flat_map (fun gid => match dget gid (grouped r) with
                          | Some rel => rel_triples gid rel
                          | None => []
                          end) (uniq ids)).

(** relationship.py:219-231 get_neighbourhood_size *)
Definition neighbourhood_size (r : relationship) (from_id : val) : nat :=
  match dget from_id (grouped r) with Some rel => rel_len rel | None => 0 end.
Definition get_neighbourhood_size (r : relationship) (from_ids : list val) : dict val nat :=
  map (fun f => (f, neighbourhood_size r f)) (uniq from_ids).

(** relationship.py:233-238 unique_tos *)
Definition unique_tos (r : relationship) : list val :=
  uniq (flat_map (fun g => to_ids (snd g)) (grouped r)).

(** ** select_one *)

(** one row of [output], relationship.py:305-309; idx -1 is None *)
Record sel := mkSel { s_req : val; s_from : val; s_idx : option nat; s_to : val }.

(** relationship.py:283-299 _results() *)
Fixpoint select_results (g : dict val relations) (discard_empty : bool) (ov : option (dict val Q))
    (reqs : list (val * val)) (st : rng) : result (list sel * rng) :=
  match reqs with
  | [] => Ok ([], st)
  | (req_index, from_id) :: reqs' =>
      let! (row, st1) :=
        match dget from_id g with
        | Some rel =>
            let! (p, st') := pick_one rel st ov in
            match p with
            | None => Ok (if discard_empty then [] else [mkSel req_index from_id None VNA], st')
            | Some (idx, picked) => Ok ([mkSel req_index from_id (Some idx) picked], st')
            end
        | None => Ok (if discard_empty then [] else [mkSel req_index from_id None VNA], st)
        end in
      let! (rows, st2) := select_results g discard_empty ov reqs' st1 in
      Ok (row ++ rows, st2)
  end.

(** drop_duplicates(subset=named_as, keep="first") *)
Fixpoint dedup_to (seen : list val) (l : list sel) : list sel :=
  match l with
  | [] => []
  | s :: l' => if mem (s_to s) seen then dedup_to seen l' else s :: dedup_to (s_to s :: seen) l'
  end.

(** df.loc[labels]: all rows of each label in turn *)
Definition loc_rows {A} (lab : A -> val) (labels : list val) (rows : list A) : list A :=
  flat_map (fun l => filter (fun s => keqb (lab s) l) rows) labels.

(** relationship.py:311-319 *)
Definition one_to_one_filter (out : list sel) (st : rng) : list sel * rng :=
  let blanks := filter (fun s => is_na (s_to s)) out in
  let present := filter (fun s => negb (is_na (s_to s))) out in
  let (perm, st') := permutation (map s_req present) st in
  (dedup_to [] (loc_rows s_req perm present) ++ blanks, st').

Definition idx_list (l : list sel) : list nat :=
  flat_map (fun s => match s_idx s with Some i => [i] | None => [] end) l.

(** relationship.py:325-331: remove the listed positions of one from *)
Definition remove_group (g : dict val relations) (from_id : val) (idxs : list nat)
  : dict val relations :=
  match dget from_id g with
  | None => g
  | Some rel =>
      let rel' := remove_inplace rel idxs in
      if rel_len rel' =? 0 then ddel from_id g else dset from_id rel' g
  end.

Definition remove_selected_one (g : dict val relations) (out : list sel) : dict val relations :=
  let present := filter (fun s => match s_idx s with Some _ => true | None => false end) out in
  fold_left (fun g f => remove_group g f (idx_list (filter (fun s => keqb (s_from s) f) present)))
            (uniq (map s_from present)) g.

(** relationship.py:269-274: missing keys of overridden_to_weights *)
Definition overridden_ok (r : relationship) (ov : option (dict val Q)) : bool :=
  match ov with
  | None => true
  | Some d => forallb (fun t => dmem t d) (unique_tos r)
  end.

(** relationship.py:240-334 select_one; a row is (index, from, to).
    [from_ids] is a Series as (index, value) pairs; None selects for all froms. *)
Definition select_one (r : relationship) (from_ids : option (list (val * val)))
    (remove_selected discard_empty one_to_one : bool) (ov : option (dict val Q))
  : result (list (val * val * val) * relationship) :=
  if negb (overridden_ok r ov) then Err AssertionError
  else
    let reqs := match from_ids with
                | Some l => l
                | None => combine (map vnat (seq 0 (length (grouped r)))) (dkeys (grouped r))
                end in
    let! (output, st1) := select_results (grouped r) discard_empty ov reqs (r_state r) in
    let (output, st2) := match output with
                         | [] => ([], st1)
                         | _ => if one_to_one then one_to_one_filter output st1 else (output, st1)
                         end in
    let g := if remove_selected then remove_selected_one (grouped r) output else grouped r in
    Ok (map (fun s => (s_req s, s_from s, s_to s)) output, mkRelationship (r_seed r) st2 g).

(** ** select_all_horizontal, relationship.py:336-351; rows (from, tos) *)
Definition select_all_horizontal (r : relationship) (from_ids : list val) : list (val * list val) :=
  let rows := get_relations r (Some from_ids) in
  map (fun f => (f, map (fun '(_, t, _) => t) (filter (fun '(f', _, _) => keqb f' f) rows)))
      (uniq (map (fun '(f, _, _) => f) rows)).

(** ** select_many *)

Record req := mkReq { q_idx : val; q_from : val; q_qty : nat }.
Record pick := mkPick { p_req : val; p_from : val; p_tos : list val; p_idx : list nat }.

(** relationship.py:368-377: requests gathered per from (groupby drops NaN keys), each group
    shuffled.  Output: (from, shuffled requests). *)
Fixpoint gather (reqs : list req) (froms : list val) (st : rng)
  : list (val * list req) * rng :=
  match froms with
  | [] => ([], st)
  | f :: froms' =>
      let df := filter (fun q => keqb (q_from q) f) reqs in
      let (perm, st1) := permutation (map q_idx df) st in
      let (rest, st2) := gather reqs froms' st1 in
      ((f, loc_rows q_idx perm df) :: rest, st2)
  end.

(** relationship.py:400-413: slices of the picks, requests of size 0 skipped *)
Definition split_picks (f : val) (qs : list req) (sizes : list nat) (tos : list val) (idxs : list nat)
  : list pick :=
  flat_map (fun '(q, (ts, is)) => match is with [] => [] | _ => [mkPick (q_idx q) f ts is] end)
           (combine qs (combine (slices sizes tos) (slices sizes idxs))).

(** relationship.py:379-417 _all_picks_results.  Simplification: quantities are
    non-negative integers. *)
Fixpoint all_picks (g : dict val relations) (all_reqs : list (val * list req)) (st : rng)
  : result (list pick * rng) :=
  match all_reqs with
  | [] => Ok ([], st)
  | (f, qs) :: rest =>
      match dget f g with
      | None => all_picks g rest st
      | Some rel =>
          let! caps := cap_to_total (map (fun q => Z.of_nat (q_qty q)) qs) (Z.of_nat (rel_len rel)) in
          let sizes := map Z.to_nat caps in
          let! (idxs, tos, st1) := pick_many rel st (nsum sizes) in
          let! (ps, st2) := all_picks g rest st1 in
          Ok (split_picks f qs sizes tos idxs ++ ps, st2)
      end
  end.

(** relationship.py:424-435: only [.values[0]], the positions of the first row of each from *)
Definition remove_selected_many (g : dict val relations) (out : list pick) : dict val relations :=
  fold_left (fun g f =>
               match filter (fun p => keqb (p_from p) f) out with
               | [] => g
               | p :: _ => remove_group g f (p_idx p)
               end)
            (uniq (map p_from out)) g.

(** pandas Index.difference *)
Definition list_eqb {K} `{EqK K} (a b : list K) : bool :=
  (length a =? length b) && forallb (fun '(x, y) => keqb x y) (combine a b).
Definition index_difference (a b : list val) : list val :=
  if list_eqb a b then []
  else match b with
       | [] => a
       | _ => isort val_leb (uniq (filter (fun x => negb (mem x b)) a))
       end.

(** relationship.py:353-454 select_many; rows (index, tos) *)
Definition select_many (r : relationship) (reqs : list req) (remove_selected discard_empty : bool)
  : result (list (val * list val) * relationship) :=
  let froms := uniq (filter (fun f => negb (is_na f)) (map q_from reqs)) in
  let (all_reqs, st1) := gather reqs froms (r_state r) in
  let! (out, st2) := all_picks (grouped r) all_reqs st1 in
  let g := if remove_selected then remove_selected_many (grouped r) out else grouped r in
  let rows := map (fun p => (p_req p, p_tos p)) out in
  let rows := if negb discard_empty && negb (length rows =? length reqs)
              then rows ++ map (fun i => (i, [])) (index_difference (map q_idx reqs) (map fst rows))
              else rows in
  Ok (rows, mkRelationship (r_seed r) st2 g).

(** relationship.py:153-161 add_relations again, with the iteration order of the set union of
    util_functions.py:106 (it depends on the hash seed of the process) as a parameter.
    [add_relations] is the case [order = identity]. *)
Definition add_relations_ord (order : list val -> list val) (r : relationship)
    (from_ids tos : list val) (w : weights_arg) : result relationship :=
  let! d := from_tuples from_ids tos w in
  let! g := merge_2_dicts_ord (order (union_keys (grouped r) d)) (Some rel_plus) (grouped r) d in
  Ok (with_grouped r g).
