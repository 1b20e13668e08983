(** Properties of attributes and populations (C52-C58, C60, C79, C88-C91). *)
From Verif Require Import Base BaseFacts Rng Utils Relationship SpecRelationship Frame Gens GensProps Clock Attribute SpecAttribute
  AttributeFacts World Story Ops Fs Circus SpecStory SpecOps SpecWorld Samples StorySamples PropOps WorldProps SpecPopulation
  PopFacts PopProps GensKept PopMore.
From Coq Require Import Permutation.

(** ** Samples: [market] has the people A, B, C with an attribute AGE *)
Definition ages : series := [(s_ "A", vz 31); (s_ "B", vz 42); (s_ "C", vz 53)].
Lemma market_ages : nth_error (w_attrs market) 0 = Some ages.
Proof. vm_compute. reflexivity. Qed.
Lemma market_single : single_valued market 0.
Proof. exists ages. split; [exact market_ages|]. repeat constructor; cbn; intuition discriminate. Qed.
Lemma market_age_at : attribute_at market 0 "AGE" 0.
Proof. eexists. split; [vm_compute; reflexivity|reflexivity]. Qed.
Definition market_pop : pop := nth 0 (w_pops market) (mkPop [] 0 [] []).
Lemma market_pop_at : nth_error (w_pops market) 0 = Some market_pop.
Proof. apply nth_error_nth'. vm_compute. lia. Qed.
Lemma market_singles n a : attribute_at market 0 n a -> single_valued market a.
Proof.
  intros (po & Hp & Ha). rewrite market_pop_at in Hp. injection Hp as <-.
  change (p_attrs market_pop) with [("AGE"%string, 0)] in Ha. cbn [dget] in Ha. destruct (keqb n "AGE"%string); [|discriminate].
  injection Ha as <-. exact market_single.
Qed.

(** ** C52.  Attribute.update writes exactly the listed values; get_values reads them. *)
Theorem C52_update_is_pointwise a s w : single_valued w a -> NoDup (map fst s) ->
  exists w', update_attr a s w = (Ok tt, w') /\ only_attribute a w w' /\ single_valued w' a /\
    forall k v, holds w' a k v <-> In (k, v) s \/ ~ In k (map fst s) /\ holds w a k v.
Proof. exact (update_points a s w). Qed.
Print Assumptions C52_update_is_pointwise.
Theorem C52_get_values_in_order p name ids w a : attribute_at w p name a -> single_valued w a ->
  (exists s, get_attribute_values p name (Some ids) w = (Ok s, w) /\ map fst s = ids /\
     forall k v, In (k, v) s -> holds w a k v) \/
  (get_attribute_values p name (Some ids) w = (Err KeyError, w) /\ exists i, In i ids /\ forall v, ~ holds w a i v).
Proof. exact (values_of_ids p name ids w a). Qed.
Print Assumptions C52_get_values_in_order.
Example C52_example : built stream market /\ attribute_at market 0 "AGE" 0 /\ single_valued market 0 /\
  NoDup (map fst [(s_ "D", vz 60); (s_ "B", vz 43)]) /\
  fst (get_attribute_values 0 "AGE" (Some [s_ "C"; s_ "A"; s_ "C"]) market) =
    Ok [(s_ "C", vz 53); (s_ "A", vz 31); (s_ "C", vz 53)] /\
  fst (get_attribute_values 0 "AGE" (Some [s_ "C"; s_ "Z"]) market) = Err KeyError.
Proof.
  split; [exact market_built|]. split; [exact market_age_at|]. split; [exact market_single|].
  split; [repeat constructor; cbn; intuition discriminate|]. split; vm_compute; reflexivity.
Qed.

(** ** C53.  False: an update that names a member twice raises, and leaves the attribute with
    several values for one member. *)
Theorem C53_repeated_ids_refuted a s w : single_valued w a -> ~ NoDup (map fst s) ->
  exists w', update_attr a s w = (Err ValueError, w') /\ only_attribute a w w' /\ ~ single_valued w' a.
Proof. exact (update_repeated a s w). Qed.
Print Assumptions C53_repeated_ids_refuted.
Example C53_example : single_valued market 0 /\ ~ NoDup (map fst [(s_ "B", vz 43); (s_ "B", vz 44)]) /\
  nth_error (w_attrs (snd (update_attr 0 [(s_ "B", vz 43); (s_ "B", vz 44)] market))) 0 =
    Some [(s_ "A", vz 31); (s_ "B", vz 42); (s_ "B", vz 42); (s_ "C", vz 53)].
Proof.
  split; [exact market_single|]. split; [|vm_compute; reflexivity].
  intros H. inversion H as [|? ? N _]. apply N. now left.
Qed.

(** ** C54.  Attribute.add adds to each member the sum of what is listed for it. *)
Theorem C54_add_accumulates t ids added t' : attr_add t ids added = Ok t' ->
  dkeys t' = dkeys t /\
  forall k, k <> VNA ->
    (forall x, dget k t = Some (VNum x) -> dget k t' = Some (VNum (x + total k (combine ids added))%Qc)) /\
    (~ In k ids -> dget k t' = dget k t).
Proof. exact (attr_add_ok t ids added t'). Qed.
Print Assumptions C54_add_accumulates.
Theorem C54_add_succeeds t ids added : NoDup (dkeys t) -> length ids = length added ->
  (forall v, In v added -> numeric v) -> (forall k v, In (k, v) t -> numeric v) ->
  (forall i, In i ids -> i <> VNA -> In i (dkeys t)) ->
  exists t', attr_add t ids added = Ok t'.
Proof. exact (attr_add_runs t ids added). Qed.
Print Assumptions C54_add_succeeds.
Theorem C54_unknown_raises t ids added : NoDup (dkeys t) -> length ids = length added ->
  (forall v, In v added -> numeric v) -> forall i, In i ids -> i <> VNA -> ~ In i (dkeys t) ->
  attr_add t ids added = Err KeyError.
Proof. exact (attr_add_unknown t ids added). Qed.
Print Assumptions C54_unknown_raises.
Theorem C54_order_irrelevant k p1 p2 : Permutation p1 p2 -> total k p1 = total k p2.
Proof. exact (total_perm k p1 p2). Qed.
Print Assumptions C54_order_irrelevant.
(** The operations attribute.ops.add and attribute.ops.subtract. *)
Theorem C54_operation a idf added sub d w d' l w' : run_op (OpAttrAdd a idf added sub) d w = (Ok (d', l), w') ->
  single_valued w a ->
  d' = d /\ l = [] /\ only_attribute a w w' /\
  (forall k x, k <> VNA -> holds w a k (VNum x) ->
     holds w' a k (VNum (if sub then x - total k (listed d idf added) else x + total k (listed d idf added))%Qc)) /\
  (forall k, k <> VNA -> ~ In k (map fst (listed d idf added)) -> forall v, holds w' a k v <-> holds w a k v).
Proof. exact (add_op a idf added sub d w d' l w'). Qed.
Print Assumptions C54_operation.
Definition gifts : df := mkDf ["TO"; "N"]%string
  [(s_ "x", [s_ "B"; vz 2]); (s_ "y", [s_ "A"; vz 1]); (s_ "z", [s_ "B"; vz 3])].
Example C54_example : single_valued market 0 /\
  (exists d l w', run_op (OpAttrAdd 0 "TO" "N" true) gifts market = (Ok (d, l), w') /\
     nth_error (w_attrs w') 0 = Some [(s_ "A", vz 30); (s_ "B", vz 37); (s_ "C", vz 53)]).
Proof. split; [exact market_single|]. run_example. vm_compute. reflexivity. Qed.

(** ** C55.  The ids of a population are distinct, whatever the history. *)
Theorem C55_ids_distinct g w p po : built g w -> nth_error (w_pops w) p = Some po -> NoDup (p_ids po).
Proof. exact (built_ids g w p po). Qed.
Print Assumptions C55_ids_distinct.
Theorem C55_duplicates_refused name ids w : ~ NoDup ids ->
  exists e, create_population name None None (Some ids) w = (Err e, w).
Proof. exact (population_ids_refused name ids w). Qed.
Print Assumptions C55_duplicates_refused.
Theorem C55_generated_duplicates_refused name g n w vs gens : n <> 0%Z -> dmem name (w_pop_names w) = false ->
  gen_generate (w_gens w) g n = Ok (vs, gens) -> ~ NoDup vs ->
  create_population name (Some g) (Some n) None w = (Err ValueError, set_gens gens w).
Proof. exact (population_gen_refused name g n w vs gens). Qed.
Print Assumptions C55_generated_duplicates_refused.
Example C55_example : built stream market /\ p_ids market_pop = [s_ "A"; s_ "B"; s_ "C"] /\
  rmap fst (gen_generate (w_gens market) 0 2) = Ok [vz 1; vz 1] /\ dmem "twins"%string (w_pop_names market) = false.
Proof. split; [exact market_built|]. repeat split; vm_compute; reflexivity. Qed.

(** ** C56.  False: size is not updated when members are added. *)
Definition newcomer : df := mkDf ["AGE"]%string [(s_ "D", [vz 60]); (s_ "A", [vz 32])].
Definition market_plus : world := calls market [CPopulationUpdate 0 newcomer].
Lemma market_plus_built : built stream market_plus.
Proof. apply built_calls; [exact market_built|]. repeat constructor. Qed.
Theorem C56_size_refuted : exists w po, built stream w /\ nth_error (w_pops w) 0 = Some po /\
  p_size po = 3%Z /\ length (p_ids po) = 4.
Proof.
  exists market_plus, (nth 0 (w_pops market_plus) (mkPop [] 0 [] [])). split; [exact market_plus_built|].
  split; [apply nth_error_nth'; vm_compute; lia|]. split; vm_compute; reflexivity.
Qed.
Print Assumptions C56_size_refuted.
(** At creation the size is the number of members; later it never changes while members may
    be added and none disappears. *)
Theorem C56_size_at_creation name g s i w p w' : create_population name g s i w = (Ok p, w') ->
  Forall elementwise (w_gens w) -> (forall n, s = Some n -> (0 <= n)%Z) ->
  exists po, nth_error (w_pops w') p = Some po /\ p_size po = Z.of_nat (length (p_ids po)) /\ NoDup (p_ids po) /\
    (forall ids, i = Some ids -> p_ids po = ids) /\ (forall n, s = Some n -> p_size po = n) /\
    p_attrs po = [] /\ p_rels po = [].
Proof. exact (created_size name g s i w p w'). Qed.
Print Assumptions C56_size_at_creation.
Theorem C56_members_stay w w' p po : later w w' -> nth_error (w_pops w) p = Some po ->
  exists po', nth_error (w_pops w') p = Some po' /\ p_size po' = p_size po /\ incl (p_ids po) (p_ids po').
Proof. exact (members_stay w w' p po). Qed.
Print Assumptions C56_members_stay.
Example C56_example : later market market_plus /\ nth_error (w_pops market) 0 = Some market_pop /\
  Forall elementwise (w_gens market) /\
  exists p w', create_population "twins" None None (Some [s_ "P"; s_ "Q"]) market = (Ok p, w') /\ p = 1.
Proof.
  split; [apply later_call, later_now|]. split; [exact market_pop_at|]. split; [vm_compute; repeat constructor|].
  apply (ran_ex 0); vm_compute; reflexivity.
Qed.

(** ** C57.  Population.update stores full members. *)
Theorem C57_update_stores_members g w p po d : built g w -> nth_error (w_pops w) p = Some po ->
  (forall n, In n (df_cols d) <-> In n (dkeys (p_attrs po))) -> NoDup (df_cols d) ->
  (forall n a, attribute_at w p n a -> single_valued w a) ->
  exists w', pop_update p d w = (Ok tt, w') /\
    (forall i, member w' p i <-> member w p i \/ In i (df_index d)) /\
    (forall n a, attribute_at w p n a -> attribute_at w' p n a /\ single_valued w' a /\
       forall k v, holds w' a k v <->
         last_value k (map (fun row => (fst row, cell (df_cols d) (snd row) n)) (df_rows d)) = Some v \/
         ~ In k (df_index d) /\ holds w a k v) /\
    (forall q, q <> p -> nth_error (w_pops w') q = nth_error (w_pops w) q) /\
    (forall q n b, q <> p -> attribute_at w q n b -> nth_error (w_attrs w') b = nth_error (w_attrs w) b).
Proof. exact (population_update g w p po d). Qed.
Print Assumptions C57_update_stores_members.
Theorem C57_missing_attribute_refused w p po d : nth_error (w_pops w) p = Some po ->
  ~ (forall n, In n (df_cols d) <-> In n (dkeys (p_attrs po))) -> pop_update p d w = (Err ValueError, w).
Proof. exact (population_update_refused w p po d). Qed.
Print Assumptions C57_missing_attribute_refused.
Example C57_example : built stream market /\ nth_error (w_pops market) 0 = Some market_pop /\
  (forall n, In n (df_cols newcomer) <-> In n (dkeys (p_attrs market_pop))) /\ NoDup (df_cols newcomer) /\
  (forall n a, attribute_at market 0 n a -> single_valued market a) /\
  nth_error (w_attrs market_plus) 0 = Some [(s_ "A", vz 32); (s_ "B", vz 42); (s_ "C", vz 53); (s_ "D", vz 60)].
Proof.
  split; [exact market_built|]. split; [exact market_pop_at|]. split; [change (p_attrs market_pop) with [("AGE"%string, 0)]; cbn; tauto|].
  split; [repeat constructor; cbn; tauto|]. split; [exact market_singles|]. vm_compute. reflexivity.
Qed.

(** ** C58.  False: create_relationship accepts an existing name, which then denotes a new,
    empty relationship; the former one can no longer be reached by its name. *)
Theorem C58_name_reused_refuted p name seed w po : nth_error (w_pops w) p = Some po ->
  exists r w' rel, create_relationship p name seed w = (Ok r, w') /\ relationship_at w' p name r /\
    nth_error (w_rels w') r = Some rel /\ (forall f t, ~ related rel f t) /\
    (forall r0, r0 < length (w_rels w) -> r0 <> r /\ nth_error (w_rels w') r0 = nth_error (w_rels w) r0).
Proof. exact (relationship_replaced p name seed w po). Qed.
Print Assumptions C58_name_reused_refuted.
Example C58_example : nth_error (w_pops market) 0 = Some market_pop /\ relationship_at market 0 "items" 0 /\
  (exists rel, nth_error (w_rels market) 0 = Some rel /\ related rel (s_ "A") (s_ "x")).
Proof.
  split; [exact market_pop_at|]. split; [eexists; split; [vm_compute; reflexivity|reflexivity]|].
  exists market_rel. split; [exact market_rel_at|]. exists 1%Q.
  replace (stored market_rel) with [(s_ "A", s_ "x", 1%Q); (s_ "A", s_ "z", 1%Q); (s_ "A", s_ "t", 1%Q); (s_ "B", s_ "y", 1%Q)]
    by (vm_compute; reflexivity). now left.
Qed.

(** ** C60.  population.ops.select_one. *)
Theorem C60_selects_members_partial p n wa w g w' po w2 d d' l w3 : nth_error (w_pops w) p = Some po ->
  pop_select_one p n wa w = (Ok (OpGenerate g n None), w') -> later w' w2 ->
  run_op (OpGenerate g n None) d w2 = (Ok (d', l), w3) -> ~ In n (df_cols d) ->
  exists vs, adds_column d d' n vs /\ (forall v, In v vs -> In v (p_ids po)) /\
    (forall name a t, wa = Some name -> attribute_at w p name a -> nth_error (w_attrs w) a = Some t ->
       map fst t = p_ids po -> forall v, In v vs -> exists x, holds w a v (VNum x) /\ (Q2Qc 0 < x)%Qc).
Proof. exact (member_selected p n wa w g w' po w2 d d' l w3). Qed.
Print Assumptions C60_selects_members_partial.
Theorem C60_bad_weights_refused p n name w po a t qs : nth_error (w_pops w) p = Some po -> dget name (p_attrs po) = Some a ->
  nth_error (w_attrs w) a = Some t -> mapr as_Q (map snd t) = Ok qs ->
  (exists q, In q qs /\ (q < 0)%Q) \/ (forall q, In q qs -> (q == 0)%Q) ->
  pop_select_one p n (Some name) w = (Err ValueError, w).
Proof. exact (selection_refused p n name w po a t qs). Qed.
Print Assumptions C60_bad_weights_refused.
Example C60_example : exists g w', pop_select_one 0 "CHOSEN" (Some "AGE"%string) market = (Ok (OpGenerate g "CHOSEN" None), w') /\
  later w' w' /\ map fst ages = p_ids market_pop /\
  exists d l w3, run_op (OpGenerate g "CHOSEN" None) visitors w' = (Ok (d, l), w3) /\ length (df_rows d) = 3.
Proof.
  exists (length (w_gens market)). eexists. split; [apply (ran (OpChain []) (pop_select_one 0 "CHOSEN" (Some "AGE"%string))); vm_compute; reflexivity|].
  split; [apply later_now|]. split; [vm_compute; reflexivity|]. run_example. vm_compute. reflexivity.
Qed.

(** Finding 39: once an update has reordered the attribute table, the weights are those of
    other members: here the only member with a positive weight is never chosen. *)
Definition two_weights : list call :=
  [CPopulation "pair" None None (Some [s_ "B"; s_ "A"]);
   CAttribute 0 "W" (Some (VValues [vz 0; vz 1])) None None;
   CAttributeUpdate 0 [(s_ "A", vz 1)]; CSelectMember 0 "CHOSEN" (Some "W"%string)].
Definition pair : world := calls circus0 two_weights.
Theorem C60_misaligned_refuted : exists w d l w', built stream w /\
  holds w 0 (s_ "B") (vz 0) /\ holds w 0 (s_ "A") (vz 1) /\
  run_op (OpGenerate 0 "CHOSEN" None) (mkDf [] [(s_ "x", []); (s_ "y", [])]) w = (Ok (d, l), w') /\
  df_rows d = [(s_ "x", [s_ "B"]); (s_ "y", [s_ "B"])].
Proof.
  assert (Ht : nth_error (w_attrs pair) 0 = Some [(s_ "A", vz 1); (s_ "B", vz 0)]) by (vm_compute; reflexivity).
  exists pair. eexists _, _, _. split; [apply built_calls; [apply built_new|repeat constructor]|].
  split; [eexists; split; [exact Ht|cbn; auto]|]. split; [eexists; split; [exact Ht|cbn; auto]|].
  split; [apply ran_d; vm_compute; reflexivity|]. vm_compute. reflexivity.
Qed.
Print Assumptions C60_misaligned_refuted.

(** ** C79.  Stocks. *)
Theorem C79_stock_items p name gi n w w' po : nth_error (w_pops w) p = Some po ->
  create_stock_relationship p name gi n w = (Ok tt, w') ->
  exists rel items, relationship_at w' p name (length (w_rels w)) /\
    w_rels w' = w_rels w ++ [rel] /\
    gen_generate (w_gens w) gi (n * p_size po) = Ok (items, w_gens w') /\
    Permutation (map (fun x => snd (fst x)) (stored rel)) items /\
    (forall f t, related rel f t -> In f (p_ids po)) /\
    (forall f t q, In (f, t, q) (stored rel) -> q = 1%Q).
Proof. exact (stock_created p name gi n w w' po). Qed.
Print Assumptions C79_stock_items.
Theorem C79_one_owner rel items t : Permutation (map (fun x => snd (fst x)) (stored rel)) items -> NoDup items -> In t items ->
  exists f, related rel f t /\ forall f', related rel f' t -> f' = f.
Proof. exact (one_owner rel items t). Qed.
Print Assumptions C79_one_owner.
Theorem C79_bulk_stock p name gi w w' po : nth_error (w_pops w) p = Some po ->
  create_stock_relationship_grp p name gi w = (Ok tt, w') ->
  exists rel bulks, relationship_at w' p name (length (w_rels w)) /\ w_rels w' = w_rels w ++ [rel] /\
    gen_generate (w_gens w) gi (p_size po) = Ok (map VList bulks, w_gens w') /\
    Permutation (stored rel) (flat_map (fun '(f, ts) => map (fun t => (f, t, 1%Q)) ts) (combine (p_ids po) bulks)).
Proof. exact (bulk_stock_created p name gi w w' po). Qed.
Print Assumptions C79_bulk_stock.
Definition market_gens : world := calls market [CNewGen (GSeq 0 "sim_" 3); CNewGen (GConst (vz 2)); CNewGen (GBulk 4 3)].
Example C79_example : exists w', create_stock_relationship 0 "sims" 3 2 market_gens = (Ok tt, w') /\
  rmap fst (gen_generate (w_gens market_gens) 3 6) =
    Ok [s_ "sim_000"; s_ "sim_001"; s_ "sim_002"; s_ "sim_003"; s_ "sim_004"; s_ "sim_005"] /\
  exists w2, create_stock_relationship_grp 0 "sims" 5 market_gens = (Ok tt, w2).
Proof.
  eexists. split; [apply (ran tt); vm_compute; reflexivity|]. split; [vm_compute; reflexivity|].
  eexists. apply (ran tt); vm_compute; reflexivity.
Qed.

(** ** C88.  to_dataframe shows every attribute of every member. *)
Theorem C88_frame_shows_all g p w po d w' : built g w -> nth_error (w_pops w) p = Some po ->
  (forall n a, attribute_at w p n a -> single_valued w a) -> to_dataframe p w = (Ok d, w') ->
  w' = w /\ map fst (df_rows d) = p_ids po /\ NoDup (df_cols d) /\
  (forall n, In n (df_cols d) <-> exists a, attribute_at w p n a) /\
  (forall n a row, attribute_at w p n a -> In row (df_rows d) -> holds w a (fst row) (cell (df_cols d) (snd row) n)).
Proof. exact (frame_shows g p w po d w'). Qed.
Print Assumptions C88_frame_shows_all.
Theorem C88_frame_available p w po : nth_error (w_pops w) p = Some po ->
  (forall n a, attribute_at w p n a -> single_valued w a /\ forall i, In i (p_ids po) -> exists v, holds w a i v) ->
  exists d, to_dataframe p w = (Ok d, w).
Proof. exact (frame_runs p w po). Qed.
Print Assumptions C88_frame_available.
Example C88_example : built stream market_plus /\
  (exists d w', to_dataframe 0 market_plus = (Ok d, w') /\ df_cols d = ["AGE"]%string /\ df_rows d =
     [(s_ "A", [vz 32]); (s_ "B", [vz 42]); (s_ "C", [vz 53]); (s_ "D", [vz 60])]).
Proof.
  split; [exact market_plus_built|]. apply (ran_ex (mkDf [] [])); [vm_compute; reflexivity|].
  split; vm_compute; reflexivity.
Qed.

(** ** C89.  Initial values of an attribute. *)
Theorem C89_from_values p name vs w a w' po : nth_error (w_pops w) p = Some po -> p_size po <> 0%Z ->
  create_attribute p name (Some (VValues vs)) None None w = (Ok a, w') ->
  attribute_at w' p name a /\ length vs = length (p_ids po) /\
  (forall k v, holds w' a k v <-> exists i, nth_error (p_ids po) i = Some k /\ nth_error vs i = Some v).
Proof. exact (attr_from_values p name vs w a w' po). Qed.
Print Assumptions C89_from_values.
Theorem C89_from_scalar p name v0 w a w' po : nth_error (w_pops w) p = Some po -> p_size po <> 0%Z ->
  create_attribute p name (Some (VScalar v0)) None None w = (Ok a, w') ->
  attribute_at w' p name a /\ (forall k v, holds w' a k v <-> In k (p_ids po) /\ v = v0).
Proof. exact (attr_from_scalar p name v0 w a w' po). Qed.
Print Assumptions C89_from_scalar.
Theorem C89_from_generator p name g w a w' po : nth_error (w_pops w) p = Some po -> p_size po <> 0%Z ->
  create_attribute p name None (Some g) None w = (Ok a, w') ->
  exists vs, gen_generate (w_gens w) g (p_size po) = Ok (vs, w_gens w') /\ length vs = length (p_ids po) /\
  attribute_at w' p name a /\
  (forall k v, holds w' a k v <-> exists i, nth_error (p_ids po) i = Some k /\ nth_error vs i = Some v).
Proof. exact (attr_from_gen p name g w a w' po). Qed.
Print Assumptions C89_from_generator.
(** From a relationship: each member with relations gets one of them; isolated members get
    nothing, or NA if they had relations before. *)
Theorem C89_from_relationship p name rn w a w' po r rel : nth_error (w_pops w) p = Some po -> p_size po <> 0%Z ->
  dget rn (p_rels po) = Some r -> nth_error (w_rels w) r = Some rel -> reachable rel ->
  create_attribute p name None None (Some rn) w = (Ok a, w') ->
  attribute_at w' p name a /\ single_valued w' a /\
  (forall k v, holds w' a k v -> related rel k v \/ (isolated rel k /\ v = VNA)) /\
  (forall k t, related rel k t -> exists v, holds w' a k v).
Proof. exact (attr_from_rel p name rn w a w' po r rel). Qed.
Print Assumptions C89_from_relationship.
Example C89_example : nth_error (w_pops market) 0 = Some market_pop /\ p_size market_pop <> 0%Z /\
  dget "items"%string (p_rels market_pop) = Some 0 /\
  (exists a w', create_attribute 0 "FAVOURITE" None None (Some "items"%string) market = (Ok a, w') /\ a = 1) /\
  (exists a w', create_attribute 0 "X" None (Some 2) None market = (Ok a, w') /\ a = 1) /\
  (exists a w', create_attribute 0 "X" (Some (VScalar (vz 7))) None None market = (Ok a, w') /\ a = 1).
Proof.
  split; [exact market_pop_at|]. split; [vm_compute; discriminate|]. split; [vm_compute; reflexivity|].
  split; [|split]; apply (ran_ex 0); vm_compute; reflexivity.
Qed.
(** A member without relations then has no value at all: reading it raises. *)
Theorem C89_isolated_member_refuted : exists w, built stream w /\ member w 0 (s_ "C") /\ attribute_at w 0 "FAVOURITE" 1 /\
  get_attribute_values 0 "FAVOURITE" (Some [s_ "C"]) w = (Err KeyError, w).
Proof.
  exists (calls market [CAttribute 0 "FAVOURITE" None None (Some "items"%string)]).
  split; [apply built_calls; [exact market_built|repeat constructor]|].
  split; [eexists; split; [vm_compute; reflexivity|cbn; auto]|].
  split; [eexists; split; [vm_compute; reflexivity|reflexivity]|].
  match goal with |- get_attribute_values ?p ?n ?i ?w = _ =>
    destruct (values_of_ids p n [s_ "C"] w 1) as [(s & E & _)|(E & _)]; [| | |exact E] end.
  - eexists; split; [vm_compute; reflexivity|reflexivity].
  - eexists; split; [vm_compute; reflexivity|]. repeat constructor; cbn; intuition discriminate.
  - exfalso. match type of E with get_attribute_values ?p ?n ?i ?w = _ =>
      assert (X : fst (get_attribute_values p n i w) = Err KeyError) by (vm_compute; reflexivity); rewrite E in X; discriminate end.
Qed.
Print Assumptions C89_isolated_member_refuted.

(** ** C90.  An explicit seed other than 0 is the seed of the new relationship; seed 0 is not. *)
Theorem C90_explicit_seed p name q w po : nth_error (w_pops w) p = Some po ->
  exists r w', create_relationship p name (Some (Npos q)) w = (Ok r, w') /\
    nth_error (w_rels w') r = Some (mkRelationship (Npos q) (random_state (w_prng w) (Npos q)) []) /\ w_seeder w' = w_seeder w.
Proof. exact (explicit_seed p name q w po). Qed.
Print Assumptions C90_explicit_seed.
(** Without a seed the relationship gets, and uses up, the next seed of the seeder. *)
Theorem C90_default_seed p name w po seed s : nth_error (w_pops w) p = Some po -> next_seed (w_seeder w) = (seed, s) ->
  exists r w', create_relationship p name None w = (Ok r, w') /\
    nth_error (w_rels w') r = Some (mkRelationship seed (random_state (w_prng w) seed) []) /\ w_seeder w' = s.
Proof. exact (default_seed p name w po seed s). Qed.
Print Assumptions C90_default_seed.
Theorem C90_seed_zero_refuted : exists w r w' rel, built stream w /\
  create_relationship 0 "zero" (Some 0%N) w = (Ok r, w') /\ nth_error (w_rels w') r = Some rel /\ r_seed rel <> 0%N.
Proof.
  exists market, 1, (snd (create_relationship 0 "zero" (Some 0%N) market)).
  exists (nth 1 (w_rels (snd (create_relationship 0 "zero" (Some 0%N) market))) empty_rel).
  split; [exact market_built|]. split; [apply (ran 0); vm_compute; reflexivity|].
  split; [apply nth_error_nth'; vm_compute; lia|]. vm_compute. discriminate.
Qed.
Print Assumptions C90_seed_zero_refuted.

(** ** C91.  No call of the library changes the definition of a generator. *)
Theorem C91_generators_keep_definition w w' : later w w' -> gens_kept (w_gens w) (w_gens w').
Proof. exact (later_gens w w'). Qed.
Print Assumptions C91_generators_keep_definition.
Example C91_example : later market market_gens /\ nth_error (w_gens market) 0 = Some (GConst (vz 1)).
Proof. split; [unfold market_gens; cbn [calls fold_left]; do 3 apply later_call; apply later_now|vm_compute; reflexivity]. Qed.
