(** Model of /repo/trumania/components/social_networks/erdos_renyi.py, and of the part of networkx
    it uses. *)
From Verif Require Import Base BaseFacts Rng Utils Relationship Frame Gens Clock Attribute World Circus.

(** ** networkx.fast_gnp_random_graph, undirected *)

(** Inner loop: while w >= v and v < n: w = w - v; v = v + 1 (it ends within n rounds). *)
Fixpoint settle (fuel n v w : nat) : nat * nat :=
  match fuel with
  | 0 => (v, w)
  | S fuel' => if (v <=? w) && (v <? n) then settle fuel' n (S v) (w - v) else (v, w)
  end.

(** Outer loop: while v < n.  [w] is one more than the variable of that name in
    networkx; [skip x] is int(log(1 - r) / log(1 - p)) for the raw draw [x], any
    natural number.  The edges are listed in the order of their creation, as (v, w). *)
Fixpoint gnp_loop (fuel n v w : nat) (skip : N -> nat) (r : rng) : result (list (nat * nat)) :=
  if v <? n then
    match fuel with
    | 0 => Err Diverges
    | S fuel' =>
        let (x, r') := next_raw r in
        let (v', w') := settle n n v (w + skip x) in
        if v' <? n then
          let! es := gnp_loop fuel' n v' (S w') skip r' in Ok ((v', w') :: es)
        else gnp_loop fuel' n v' (S w') skip r'
    end
  else Ok [].

(** G.edges(): by smaller end, then in the order of creation. *)
Definition edges_of (n : nat) (created : list (nat * nat)) : list (nat * nat) :=
  flat_map (fun u => map (fun e => (u, fst e)) (filter (fun e => snd e =? u) created)) (seq 0 n).

(** gnp_random_graph for p >= 1: the complete graph; for p <= 0: no edge. *)
Definition complete_edges (n : nat) : list (nat * nat) :=
  flat_map (fun u => map (fun v => (u, v)) (seq (S u) (n - S u))) (seq 0 n).
Definition fast_gnp_random_graph (n : nat) (p : Q) (skip : Q -> N -> nat) (r : rng) : result (list (nat * nat)) :=
  if Qle_bool p 0 then Ok []
  else if Qle_bool 1 p then Ok (complete_edges n)
  else let! es := gnp_loop (n * n) n 1 0 (skip p) r in Ok (edges_of n es).

(** erdos_renyi.py:41-56 create_er_social_network *)
Definition create_er_social_network (customer_ids : list val) (p : Q) (skip : Q -> N -> nat) (r : rng)
  : result (list (val * val)) :=
  let! es := fast_gnp_random_graph (length customer_ids) p skip r in
  Ok (map (fun e => (nth (fst e) customer_ids VNA, nth (snd e) customer_ids VNA)) es).

(** erdos_renyi.py:15-38 add_er_social_network_relationship.  [lomax] maps a raw
    draw to a Lomax value (see [GPareto]); networkx seeds Python's random.Random,
    numpy's RandomState is used instead ([skip] is arbitrary anyway). *)
Definition numbers (vs : list val) : result (list Q) := mapr as_Q vs.
Definition rel_add_weighted (r : nat) (froms tos : list val) (ws : list val) : M unit :=
  let* rel := deref w_rels r in
  let* qs := lift (numbers ws) in
  let* rel' := lift (add_relations rel froms tos (WArray qs)) in
  put_rel r rel'.
Definition add_er_social_network (lomax : N -> Qc) (skip : Q -> N -> nat) (p : nat) (name : string) (average_degree : Q)
  : M unit :=
  let* gen_seed := next_of_seeder in
  let* g := get w_prng in
  let* po := deref w_pops p in
  if length (p_ids po) =? 0 then raise ZeroDivisionError
  else
    let* seed := next_of_seeder in
    let* pairs := lift (create_er_social_network (p_ids po)
                          (average_degree / inject_Z (Z.of_nat (length (p_ids po)))) skip (random_state g seed)) in
    let* r := create_relationship p name None in
    let weight_gen := GPareto 1 false lomax (random_state g gen_seed) in
    let* (ws, weight_gen') := lift (gen_step weight_gen (Z.of_nat (length pairs))) in
    let* _ := rel_add_weighted r (map fst pairs) (map snd pairs) ws in
    let* (ws', _) := lift (gen_step weight_gen' (Z.of_nat (length pairs))) in
    rel_add_weighted r (map snd pairs) (map fst pairs) ws'.
