(** Properties C33, C45, C75-C77 and friends about util_functions.py. *)
From Verif Require Import Base BaseFacts Rng Utils UtilsFacts UtilsProps Samples.

(** C33: latest_date_before finds the latest date of the grid starting_date + n*time_step that
    is not after upper_bound, and terminates, for every positive step. *)
Theorem C33_latest_date_before :
  forall starting_date upper_bound time_step,
    (0 < time_step)%Z ->
    exists d n, latest_date_before starting_date upper_bound time_step = Ok d /\
      d = (starting_date + n * time_step)%Z /\ (d <= upper_bound)%Z /\
      (upper_bound < d + time_step)%Z /\
      forall m, (starting_date + m * time_step <= upper_bound)%Z ->
        (starting_date + m * time_step <= d)%Z.
Proof. exact latest_date_before_latest. Qed.
Print Assumptions C33_latest_date_before.

Example C33_example :
  latest_date_before 17 100 10 = Ok 97%Z /\ latest_date_before 100 17 10 = Ok 10%Z.
Proof. split; vm_compute; reflexivity. Qed.

(** The loop does not terminate for time_step <= 0 (whatever the number of iterations allowed). *)
Theorem C33_non_positive_step_diverges :
  forall starting_date upper_bound time_step,
    (time_step <= 0)%Z ->
    (upper_bound < starting_date \/ time_step <= upper_bound - starting_date)%Z ->
    forall fuel, latest_date_before_fuel fuel starting_date upper_bound time_step = Err Diverges.
Proof. exact latest_date_before_diverges. Qed.
Print Assumptions C33_non_positive_step_diverges.

(** C45: cap_to_total. *)
Theorem C45_cap_to_total :
  forall values total,
    Forall (fun x => 0 <= x)%Z values -> (0 <= total)%Z ->
    exists capped,
      cap_to_total values total = Ok capped /\
      Forall2 (fun c x => 0 <= c <= x)%Z capped values /\
      fold_right Z.add 0%Z capped = Z.min (fold_right Z.add 0%Z values) total /\
      (forall i j ci xi cj, i < j -> nth_error capped i = Some ci -> nth_error values i = Some xi ->
         nth_error capped j = Some cj -> (0 < cj)%Z -> ci = xi).
Proof. exact cap_fair. Qed.
Print Assumptions C45_cap_to_total.

Example C45_example : cap_to_total [4; 5; 0; 7; 2]%Z 12 = Ok [4; 5; 0; 3; 0]%Z.
Proof. vm_compute. reflexivity. Qed.

(** C75: merge_2_dicts merges pointwise, whatever the iteration order of the key set. *)
Theorem C75_merge_pointwise :
  forall (f : nat -> nat -> nat) (keys : list val) (d1 d2 : dict val nat),
    NoDup (dkeys d1) -> NoDup (dkeys d2) ->
    NoDup keys -> (forall k, In k keys <-> In k (dkeys d1) \/ In k (dkeys d2)) ->
    exists d, merge_2_dicts_ord keys (Some f) d1 d2 = Ok d /\
      NoDup (dkeys d) /\
      forall k,
        (In k (dkeys d) <-> In k (dkeys d1) \/ In k (dkeys d2)) /\
        dget k d = match dget k d1, dget k d2 with
                   | Some a, Some b => Some (f a b)
                   | Some a, None => Some a
                   | None, Some b => Some b
                   | None, None => None
                   end.
Proof. exact (@merge_pointwise val nat _). Qed.
Print Assumptions C75_merge_pointwise.

Theorem C75_merge_conflict :
  forall (d1 d2 : dict val nat) k,
    In k (dkeys d1) -> In k (dkeys d2) ->
    merge_2_dicts (Some d1) (Some d2) None = Err ValueError.
Proof. exact (@merge_conflict_raises val nat _). Qed.
Print Assumptions C75_merge_conflict.

Theorem C75_merge_disjoint :
  forall (d1 d2 : dict val nat),
    (forall k, In k (dkeys d1) -> ~ In k (dkeys d2)) ->
    NoDup (dkeys d1) -> NoDup (dkeys d2) ->
    exists d, merge_2_dicts (Some d1) (Some d2) None = Ok d /\ Permutation d (d1 ++ d2).
Proof. exact (@merge_disjoint val nat _). Qed.
Print Assumptions C75_merge_disjoint.

Theorem C75_none_neutral :
  forall f (d : dict val nat),
    merge_2_dicts (Some d) None f = Ok d /\ merge_2_dicts None (Some d) f = Ok d /\
    merge_2_dicts (K := val) (V := nat) None None f = Ok [].
Proof. exact (fun f d => conj eq_refl (conj eq_refl eq_refl)). Qed.
Print Assumptions C75_none_neutral.

Example C75_example :
  merge_2_dicts (Some [(s_ "a", 1); (s_ "b", 2)]) (Some [(s_ "c", 3); (s_ "a", 10)]) (Some Nat.add)
  = Ok [(s_ "a", 11); (s_ "b", 2); (s_ "c", 3)].
Proof. vm_compute. reflexivity. Qed.

(** C76: make_random_bipartite_data. *)
Theorem C76_bipartite_ends :
  forall (g1 g2 : list val) p edges res,
    make_random_bipartite_data g1 g2 p edges = Ok res ->
    Forall (fun e => In (fst e) g1 /\ In (snd e) g2) res.
Proof. exact (@bipartite_spec val val). Qed.
Print Assumptions C76_bipartite_ends.

Theorem C76_bipartite_positions :
  forall (g1 g2 : list val) p edges,
    edges <> [] -> g1 <> [] -> g2 <> [] -> ~ (p == 0)%Q ->
    Forall (fun e => fst e < length g1 /\ length g1 <= snd e < length g1 + length g2) edges ->
    exists res, make_random_bipartite_data g1 g2 p edges = Ok res /\
      Forall2 (fun e ab => nth_error g1 (fst e) = Some (fst ab) /\
                           nth_error g2 (snd e - length g1) = Some (snd ab)) edges res.
Proof. exact (@bipartite_edges val val). Qed.
Print Assumptions C76_bipartite_positions.

Theorem C76_bipartite_degenerate :
  forall (g1 g2 : list val) p edges,
    g1 = [] \/ g2 = [] \/ (p == 0)%Q -> make_random_bipartite_data g1 g2 p edges = Ok [].
Proof. exact bipartite_degenerate. Qed.
Print Assumptions C76_bipartite_degenerate.

(** A legal random graph may have no edge at all; the call then raises. *)
Theorem C76_bipartite_no_edge_refuted :
  exists (g1 g2 : list val) p,
    (0 < p)%Q /\ make_random_bipartite_data g1 g2 p [] = Err ValueError.
Proof. exists [s_ "a"], [s_ "b"], (1#2)%Q. split; reflexivity. Qed.
Print Assumptions C76_bipartite_no_edge_refuted.

Example C76_example :
  make_random_bipartite_data [s_ "a"; s_ "b"] [s_ "x"; s_ "y"; s_ "z"] (1#2) [(0, 4); (1, 2)]
  = Ok [(s_ "a", s_ "z"); (s_ "b", s_ "x")].
Proof. vm_compute. reflexivity. Qed.

(** C77: make_random_assign. *)
Theorem C77_random_assign :
  forall (set1 set2 : list val) r res r',
    make_random_assign set1 set2 r = Ok (res, r') ->
    map fst res = set1 /\ Forall (fun p => In (snd p) set2) res.
Proof. exact (@make_random_assign_spec val val). Qed.
Print Assumptions C77_random_assign.

Theorem C77_random_assign_total :
  forall (set1 set2 : list val) r,
    set2 <> [] \/ set1 = [] -> exists res r', make_random_assign set1 set2 r = Ok (res, r').
Proof. exact (@make_random_assign_total val val). Qed.
Print Assumptions C77_random_assign_total.

Example C77_example :
  exists res r', make_random_assign [s_ "1"; s_ "2"; s_ "3"] [s_ "x"; s_ "y"] (random_state stream 7)
                 = Ok (res, r') /\ length res = 3.
Proof. apply (ok_ex ([], random_state stream 7)); vm_compute; reflexivity. Qed.

(** C80: assign_random_proportions: rows of group1 x group2 with non-negative weights that sum
    to 1 for each element of group1 that appears. *)
Theorem C80_random_proportions :
  forall (group1 group2 : list val) r,
    NoDup group1 ->
    forall a b w, In (a, b, w) (assign_random_proportions group1 group2 r) ->
      In a group1 /\ In b group2 /\ (0 <= w <= 1)%Q /\
      (fold_right Qplus 0 (map snd (filter (fun x => keqb (fst (fst x)) a)
                                      (assign_random_proportions group1 group2 r))) == 1)%Q.
Proof. exact random_proportions. Qed.
Print Assumptions C80_random_proportions.

Example C80_example :
  length (assign_random_proportions [s_ "1"; s_ "2"] [s_ "x"; s_ "y"; s_ "z"] (random_state stream 7)) = 6.
Proof. vm_compute. reflexivity. Qed.
