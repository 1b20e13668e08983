(** Properties of the social network component (C78). *)
From Coq Require Import Permutation.
From Verif Require Import Base BaseFacts Rng Utils Relationship SpecRelationship Frame Gens Clock Attribute World Story Ops Fs Circus
  SpecStory SpecWorld SpecPopulation PopProps Components SpecComponents ComponentsFacts Samples StorySamples PropGens PropOps PropPopulation.

(** ** C78.  The Erdos-Renyi relationship is a simple undirected graph on the members, for every
    outcome of the draws; it is empty for a degree <= 0 and complete from degree = size on. *)
Theorem C78_er_social_network lomax skip p name degree w po :
  nth_error (w_pops w) p = Some po -> NoDup (p_ids po) -> p_ids po <> [] ->
  exists rel w', add_er_social_network lomax skip p name degree w = (Ok tt, w') /\
    relationship_at w' p name (length (w_rels w)) /\ w_rels w' = w_rels w ++ [rel] /\
    social_network (p_ids po) rel /\
    ((forall x, 0 <= lomax x)%Qc -> forall a b q, In (a, b, q) (stored rel) -> (1 <= q)%Q) /\
    ((degree <= 0)%Q -> stored rel = []) /\
    ((inject_Z (Z.of_nat (length (p_ids po))) <= degree)%Q ->
       forall a b, In a (p_ids po) -> In b (p_ids po) -> a <> b -> related rel a b).
Proof. exact (er_created lomax skip p name degree w po). Qed.
Print Assumptions C78_er_social_network.

(** networkx's skipping loop terminates and yields each edge at most once. *)
Theorem C78_graph_is_simple n p skip r :
  exists es, fast_gnp_random_graph n p skip r = Ok es /\ simple_graph n es.
Proof. destruct (fast_gnp_spec n p skip r) as (es & H1 & H2 & _). eauto. Qed.
Print Assumptions C78_graph_is_simple.

(** The populations of a circus meet the hypotheses (see C55). *)
Theorem C78_in_every_circus g w p po lomax skip name degree :
  built g w -> nth_error (w_pops w) p = Some po -> p_ids po <> [] ->
  exists rel w', add_er_social_network lomax skip p name degree w = (Ok tt, w') /\
    w_rels w' = w_rels w ++ [rel] /\ social_network (p_ids po) rel.
Proof.
  intros Hb Hp Hne. destruct (C78_er_social_network lomax skip p name degree w po Hp) as (rel & w' & H1 & _ & H3 & H4 & _).
  - eapply C55_ids_distinct; eauto.
  - exact Hne.
  - eauto.
Qed.
Print Assumptions C78_in_every_circus.

(** An empty population makes it raise. *)
Theorem C78_empty_population lomax skip p name degree w po : nth_error (w_pops w) p = Some po -> p_ids po = [] ->
  fst (add_er_social_network lomax skip p name degree w) = Err ZeroDivisionError.
Proof.
  intros Hp He. unfold add_er_social_network, bindM at 1. destruct (seeder_runs w) as (s & sd & ->).
  unfold bindM, get, deref. cbn [w_pops set_seeder]. rewrite Hp, He. reflexivity.
Qed.
Print Assumptions C78_empty_population.

Definition sample_skip (p : Q) (x : N) : nat := N.to_nat (x mod 2).
Example C78_example : exists po rel,
  nth_error (w_pops market) 0 = Some po /\ NoDup (p_ids po) /\ p_ids po = [s_ "A"; s_ "B"; s_ "C"] /\
  nth_error (w_rels (snd (add_er_social_network sample_lomax sample_skip 0 "friends" (3 # 2) market))) 1 = Some rel /\
  map fst (stored rel) = [(s_ "A", s_ "C"); (s_ "C", s_ "A")].
Proof.
  eexists _, _. split; [apply nth_error_nth' with (d := mkPop [] 0 [] []); vm_compute; lia|].
  split; [vm_compute; repeat constructor; cbn; intuition discriminate|]. split; [vm_compute; reflexivity|].
  split; [apply nth_error_nth' with (d := empty_rel); vm_compute; lia|]. vm_compute. reflexivity.
Qed.
