(** Proofs about the Erdos-Renyi component. *)
From Coq Require Import Permutation Lqa.
From Verif Require Import Base BaseFacts Rng RngFacts Utils Relationship SpecRelationship RelationshipFacts RelationshipProps
  Frame Gens GensProps Clock Attribute AttributeFacts World Story Ops OpsFacts SpecOps OpsProps Circus SpecStory SpecWorld SpecPopulation PopFacts PopProps PopMore
  StoryFacts Components SpecComponents.

Fixpoint tri (v : nat) : nat := match v with 0 => 0 | S v' => tri v' + v' end.
Lemma tri_mono a b : a <= b -> tri a <= tri b.
Proof. induction 1; cbn; lia. Qed.
Lemma tri_square n : 2 <= n -> tri n < n * n.
Proof. intros H. assert (G : tri n <= n * (n - 1)); [clear H; induction n as [|n IH]; cbn; nia|nia]. Qed.

Lemma settle_spec n fuel : forall v w v' w', settle fuel n v w = (v', w') -> n <= v + fuel ->
  v <= v' /\ tri v + w = tri v' + w' /\ (v' < n -> w' < v').
Proof.
  induction fuel as [|fuel IH]; intros v w v' w' H Hf; cbn [settle] in H.
  - injection H as <- <-. lia.
  - destruct (Nat.leb_spec v w), (Nat.ltb_spec v n); cbn [andb] in H.
    + apply IH in H; [|lia]. destruct H as (G1 & G2 & G3). cbn [tri] in G2. lia.
    + injection H as <- <-. lia.
    + injection H as <- <-. lia.
    + injection H as <- <-. lia.
Qed.

Definition rank (e : nat * nat) : nat := tri (fst e) + snd e.
Lemma rank_bound e n : snd e < fst e -> fst e < n -> rank e < tri n.
Proof. intros H1 H2. unfold rank. pose proof (tri_mono (S (fst e)) n H2) as T. cbn in T. lia. Qed.

Lemma gnp_loop_spec n skip fuel : forall v w r, (v < n -> w <= v /\ tri n < tri v + w + fuel) ->
  exists es, gnp_loop fuel n v w skip r = Ok es /\ NoDup es /\
    forall e, In e es -> snd e < fst e /\ fst e < n /\ tri v + w <= rank e.
Proof.
  induction fuel as [|fuel IH]; intros v w r Hf; cbn [gnp_loop]; destruct (Nat.ltb_spec v n) as [L|L].
  - exfalso. destruct (Hf L) as [H1 H2]. pose proof (tri_mono (S v) n L) as T. cbn in T. lia.
  - exists []. split; [reflexivity|]. split; [constructor|]. intros e [].
  - destruct (Hf L) as [H1 H2]. destruct (next_raw r) as [x r'].
    destruct (settle n n v (w + skip x)) as [v' w'] eqn:E. apply settle_spec in E; [|lia]. destruct E as (E1 & E2 & E3).
    destruct (Nat.ltb_spec v' n) as [L'|L'].
    + destruct (IH v' (S w') r') as (es & -> & N & P).
      { intros _. split; [specialize (E3 L'); lia|lia]. }
      cbn [bind]. eexists. split; [reflexivity|]. split.
      * constructor; [|exact N]. intros Hi. destruct (P _ Hi) as (_ & _ & R). unfold rank in R. cbn in R. lia.
      * intros e [<-|Hi]; [unfold rank; cbn; specialize (E3 L'); lia|]. destruct (P _ Hi) as (P1 & P2 & P3). repeat split; try assumption. lia.
    + destruct (IH v' (S w') r') as (es & -> & N & P); [lia|]. exists es. split; [reflexivity|]. split; [exact N|].
      intros e Hi. destruct (P _ Hi) as (P1 & P2 & P3). repeat split; try assumption. lia.
  - exists []. split; [reflexivity|]. split; [constructor|]. intros e [].
Qed.

Lemma NoDup_keyed {B} (f : nat -> list (nat * B)) l : NoDup l -> (forall u, NoDup (f u)) ->
  (forall u x, In x (f u) -> fst x = u) -> NoDup (flat_map f l).
Proof.
  intros N Hn Hk. induction N as [|u l Hu N IH]; cbn; [constructor|].
  apply NoDup_app_disj; [apply Hn|exact IH|]. intros x Hy Hx. apply in_flat_map in Hy as (u' & Hu' & Hy).
  apply Hk in Hx, Hy. congruence.
Qed.
Lemma NoDup_map_inj {A B} (f : A -> B) l : NoDup l -> (forall x y, In x l -> In y l -> f x = f y -> x = y) -> NoDup (map f l).
Proof.
  induction 1 as [|x l Hx N IH]; cbn; intros Hi; [constructor|]. constructor.
  - intros H. apply in_map_iff in H as (y & E & Hy). apply Hx. rewrite (Hi x y); auto.
  - apply IH. auto.
Qed.

Lemma edges_of_simple n es : NoDup es -> (forall e, In e es -> snd e < fst e /\ fst e < n) -> simple_graph n (edges_of n es).
Proof.
  intros N P. split.
  - apply NoDup_keyed; [apply seq_NoDup| |].
    + intros u. apply NoDup_map_inj; [now apply NoDup_filter|]. intros [a b] [a' b'] Hx Hy E.
      apply filter_In in Hx as [_ Hx], Hy as [_ Hy]. apply Nat.eqb_eq in Hx, Hy. cbn in *. congruence.
    + intros u x Hx. apply in_map_iff in Hx as (e & <- & _). reflexivity.
  - intros a b H. apply in_flat_map in H as (u & _ & H). apply in_map_iff in H as (e & [= <- <-] & H).
    apply filter_In in H as [H Hu]. apply Nat.eqb_eq in Hu. subst u. now apply P.
Qed.
Lemma complete_simple n : simple_graph n (complete_edges n).
Proof.
  split.
  - apply NoDup_keyed; [apply seq_NoDup| |].
    + intros u. apply NoDup_map_inj; [apply seq_NoDup|]. now intros x y _ _ [= ->].
    + intros u x Hx. apply in_map_iff in Hx as (e & <- & _). reflexivity.
  - intros a b H. apply in_flat_map in H as (u & Hu & H). apply in_map_iff in H as (e & [= <- <-] & H).
    apply in_seq in Hu, H. lia.
Qed.
Lemma complete_all n a b : a < b -> b < n -> In (a, b) (complete_edges n).
Proof.
  intros H1 H2. apply in_flat_map. exists a. split; [apply in_seq; lia|]. apply in_map_iff. exists b. split; [reflexivity|].
  apply in_seq. lia.
Qed.

Lemma fast_gnp_spec n p skip r : exists es, fast_gnp_random_graph n p skip r = Ok es /\ simple_graph n es /\
  ((p <= 0)%Q -> es = []) /\ ((1 <= p)%Q -> es = complete_edges n).
Proof.
  unfold fast_gnp_random_graph. destruct (Qle_bool p 0) eqn:E0.
  - exists []. apply Qle_bool_iff in E0. split; [reflexivity|]. split; [split; [constructor|easy]|]. split; [easy|]. intros H. lra.
  - assert (H0 : ~ (p <= 0)%Q) by (intros H; apply Qle_bool_iff in H; congruence).
    destruct (Qle_bool 1 p) eqn:E1.
    + exists (complete_edges n). split; [reflexivity|]. split; [apply complete_simple|]. split; [intros; contradiction|easy].
    + assert (H1 : ~ (1 <= p)%Q) by (intros H; apply Qle_bool_iff in H; congruence).
      destruct (gnp_loop_spec n (skip p) (n * n) 1 0 r) as (es & -> & N & P).
      { intros L. split; [lia|]. pose proof (tri_square n). cbn [tri]. lia. }
      eexists. split; [reflexivity|]. split; [|split; intros; contradiction].
      apply edges_of_simple; [exact N|]. intros e H. destruct (P e H) as (P1 & P2 & _). auto.
Qed.

(** The pairs of members given by a graph. *)
Lemma named_pairs ids es : NoDup ids -> simple_graph (length ids) es ->
  let pairs := map (fun e => (nth (fst e) ids VNA, nth (snd e) ids VNA)) es in
  NoDup (pairs ++ map (fun p => (snd p, fst p)) pairs) /\
  (forall a b, In (a, b) pairs -> In a ids /\ In b ids /\ a <> b).
Proof.
  intros N [Ne Hb] pairs.
  assert (I : forall i j, i < length ids -> j < length ids -> nth i ids VNA = nth j ids VNA -> i = j)
    by (intros; now apply (NoDup_nth ids VNA)).
  assert (P : forall a b, In (a, b) pairs -> exists i j, i < j /\ j < length ids /\ a = nth i ids VNA /\ b = nth j ids VNA /\ In (i, j) es).
  { intros a b H. apply in_map_iff in H as ([i j] & [= <- <-] & H). destruct (Hb _ _ H). exists i, j. auto. }
  assert (Np : NoDup pairs).
  { apply NoDup_map_inj; [exact Ne|]. intros [a b] [a' b'] Hx Hy [= E1 E2]. destruct (Hb _ _ Hx), (Hb _ _ Hy).
    apply I in E1; [|lia|lia]. apply I in E2; [|lia|lia]. congruence. }
  split.
  - apply NoDup_app_disj; [exact Np| |].
    + apply NoDup_map_inj; [exact Np|]. intros [a b] [a' b'] _ _ [= -> ->]. reflexivity.
    + intros [a b] Hy Hx. apply in_map_iff in Hy as ([a' b'] & [= <- <-] & Hy).
      apply P in Hx as (i & j & H1 & H2 & -> & -> & _). apply P in Hy as (i' & j' & H1' & H2' & E1 & E2 & _).
      apply I in E1; [|lia|lia]. apply I in E2; [|lia|lia]. lia.
  - intros a b H. apply P in H as (i & j & H1 & H2 & -> & -> & _).
    split; [apply nth_In; lia|]. split; [apply nth_In; lia|]. intros E. apply I in E; lia.
Qed.

Lemma lines3_fst froms tos ws : length tos = length froms -> length ws = length froms ->
  map fst (lines3 froms tos ws) = combine froms tos.
Proof.
  revert tos ws. induction froms as [|f froms IH]; intros [|t tos] [|x ws] H1 H2; cbn in *; try easy.
  f_equal. apply IH; lia.
Qed.
Lemma lines3_weight froms tos ws f t q : In (f, t, q) (lines3 froms tos ws) -> In q ws.
Proof.
  revert tos ws. induction froms as [|f0 froms IH]; intros [|t0 tos] [|x ws]; cbn; try easy.
  intros [[= -> -> ->]|H]; eauto.
Qed.

Lemma pareto_numbers lomax st n vs g' : gen_step (GPareto 1 false lomax st) (Z.of_nat n) = Ok (vs, g') ->
  exists qs st', numbers vs = Ok qs /\ length qs = n /\ g' = GPareto 1 false lomax st' /\
    ((forall x, 0 <= lomax x)%Qc -> Forall (fun q => (1 <= q)%Q) qs).
Proof.
  intros H. assert (L : (forall x, 0 <= lomax x)%Qc -> forall v, In v vs -> exists q, v = VNum q /\ (1 <= q)%Qc).
  { intros Hl v Hv. refine (pareto_lower 1 lomax st _ vs g' false _ Hl H v Hv). discriminate. }
  cbn [gen_step] in H. destruct (Z.ltb_spec (Z.of_nat n) 0) as [En|En]; [lia|]. rewrite Nat2Z.id in H.
  destruct (draws next_raw n st) as [xs st'] eqn:D. injection H as <- <-. apply draws_length in D.
  exists (map (fun x => this ((lomax x + 1) * 1)%Qc) xs), st'.
  split; [|split; [|split]].
  - unfold numbers. rewrite map_map. clear. induction xs as [|x xs IH]; cbn [map mapr]; [reflexivity|]. cbn [as_Q bind]. now rewrite IH.
  - now rewrite map_length.
  - reflexivity.
  - intros Hl. specialize (L Hl). apply Forall_forall. intros q Hq. apply in_map_iff in Hq as (x & <- & Hx).
    destruct (L (VNum ((lomax x + 1) * 1)%Qc)) as (q & [= <-] & Hq).
    { rewrite map_map. apply in_map_iff. eauto. }
    exact Hq.
Qed.

Lemma rel_add_weighted_ok rels new froms tos vs qs w w' : w_rels w = rels ++ [new] -> numbers vs = Ok qs ->
  rel_add_weighted (length rels) froms tos vs w = (Ok tt, w') ->
  exists rel, add_relations new froms tos (WArray qs) = Ok rel /\ w' = set_rels (rels ++ [rel]) w.
Proof.
  intros Hw Hq H. unfold rel_add_weighted in H. mstep H. apply deref_ok in E as [E ->]. rewrite Hw in E.
  rewrite nth_error_app2, Nat.sub_diag in E by lia. injection E as <-. mstep H. apply lift_ok in E as [E ->].
  rewrite Hq in E. injection E as <-. mstep H. apply lift_ok in E as [E ->].
  unfold put_rel, modify in H. rewrite Hw, set_nth_last in H. injection H as <-. eauto.
Qed.
Lemma rel_add_weighted_runs rels new froms tos vs qs w : w_rels w = rels ++ [new] -> numbers vs = Ok qs ->
  length froms <= length tos -> length froms <= length qs ->
  exists rel, rel_add_weighted (length rels) froms tos vs w = (Ok tt, set_rels (rels ++ [rel]) w).
Proof.
  intros Hw Hq H1 H2. destruct (add_relations_ok new froms tos (WArray qs) H1 H2) as (rel & E). exists rel.
  unfold rel_add_weighted, bindM, deref, lift, put_rel, modify. rewrite Hw.
  rewrite nth_error_app2, Nat.sub_diag by lia. cbn [nth_error]. rewrite Hq, E. now rewrite Hw, set_nth_last.
Qed.

Lemma combine_split1 {A B} (l : list (A * B)) : combine (map fst l) (map snd l) = l.
Proof. induction l as [|[a b] l IH]; cbn; [reflexivity|]. now rewrite IH. Qed.
Lemma combine_split2 {A B} (l : list (A * B)) : combine (map snd l) (map fst l) = map (fun x => (snd x, fst x)) l.
Proof. induction l as [|[a b] l IH]; cbn; [reflexivity|]. now rewrite IH. Qed.
Lemma seeder_runs w : exists s sd, next_of_seeder w = (Ok s, set_seeder sd w).
Proof. unfold next_of_seeder, bindM, get, modify, ret. destruct (next_seed (w_seeder w)) as [x sd]. eauto. Qed.

Lemma er_created lomax skip p name degree w po : nth_error (w_pops w) p = Some po -> NoDup (p_ids po) -> p_ids po <> [] ->
  exists rel w', add_er_social_network lomax skip p name degree w = (Ok tt, w') /\
    relationship_at w' p name (length (w_rels w)) /\ w_rels w' = w_rels w ++ [rel] /\
    social_network (p_ids po) rel /\
    ((forall x, 0 <= lomax x)%Qc -> forall a b q, In (a, b, q) (stored rel) -> (1 <= q)%Q) /\
    ((degree <= 0)%Q -> stored rel = []) /\
    ((inject_Z (Z.of_nat (length (p_ids po))) <= degree)%Q -> forall a b, In a (p_ids po) -> In b (p_ids po) -> a <> b -> related rel a b).
Proof.
  intros Hp N Hne. unfold add_er_social_network.
  unfold bindM at 1. destruct (seeder_runs w) as (s1 & sd1 & ->).
  unfold bindM at 1. unfold get at 1. unfold bindM at 1. unfold deref at 1. cbn [w_pops set_seeder w_prng]. rewrite Hp.
  assert (Hl : length (p_ids po) <> 0) by (destruct (p_ids po); [tauto|discriminate]).
  destruct (Nat.eqb_spec (length (p_ids po)) 0) as [|_]; [contradiction|].
  unfold bindM at 1. destruct (seeder_runs (set_seeder sd1 w)) as (s2 & sd2 & ->).
  set (w2 := set_seeder sd2 (set_seeder sd1 w)).
  set (n := length (p_ids po)) in *. set (pr := (degree / inject_Z (Z.of_nat n))%Q).
  unfold bindM at 1. unfold lift at 1. unfold create_er_social_network. fold n.
  destruct (fast_gnp_spec n pr skip (random_state (w_prng w) s2)) as (es & -> & Hg & Hg0 & Hg1). cbn [bind].
  set (pairs := map _ es).
  destruct (named_pairs (p_ids po) es N Hg) as [Nd Hm]. fold pairs in Nd, Hm.
  assert (Hp2 : nth_error (w_pops w2) p = Some po) by exact Hp.
  destruct (create_rel_world p name None w2 po Hp2) as (s & sd & E). unfold bindM at 1. rewrite E. clear E.
  set (w3 := set_pops _ _).
  unfold bindM at 1. unfold lift at 1.
  destruct (gen_step (GPareto 1 false lomax (random_state (w_prng w) s1)) (Z.of_nat (length pairs))) as [[vs g1]|e] eqn:G1;
    [|cbn [gen_step] in G1; destruct (Z.ltb_spec (Z.of_nat (length pairs)) 0) as [X|X]; [lia|]; now destruct (draws _ _ _)].
  destruct (pareto_numbers _ _ _ _ _ G1) as (qs1 & st1 & Q1 & L1 & -> & B1).
  unfold bindM at 1.
  change (w_rels w2) with (w_rels w).
  destruct (rel_add_weighted_runs (w_rels w) (new_relationship (w_prng w2) s) (map fst pairs) (map snd pairs) vs qs1 w3 eq_refl Q1) as (rel1 & E1);
    [rewrite !map_length; lia|rewrite !map_length; lia|].
  rewrite E1.
  destruct (rel_add_weighted_ok (w_rels w) (new_relationship (w_prng w2) s) _ _ _ _ w3 _ eq_refl Q1 E1) as (rel1' & A1 & EQ).
  assert (rel1' = rel1) as ->.
  { apply (f_equal w_rels) in EQ. cbn in EQ. apply app_inj_tail in EQ as [_ EQ]. now symmetry. }
  clear EQ. set (w4 := set_rels _ w3).
  unfold bindM at 1. unfold lift at 1.
  destruct (gen_step (GPareto 1 false lomax st1) (Z.of_nat (length pairs))) as [[vs2 g2]|e] eqn:G2;
    [|cbn [gen_step] in G2; destruct (Z.ltb_spec (Z.of_nat (length pairs)) 0) as [X|X]; [lia|]; now destruct (draws _ _ _)].
  destruct (pareto_numbers _ _ _ _ _ G2) as (qs2 & st2 & Q2 & L2 & -> & B2).
  destruct (rel_add_weighted_runs (w_rels w) rel1 (map snd pairs) (map fst pairs) vs2 qs2 w4 eq_refl Q2) as (rel2 & E2);
    [rewrite !map_length; lia|rewrite !map_length; lia|].
  destruct (rel_add_weighted_ok (w_rels w) rel1 _ _ _ _ w4 _ eq_refl Q2 E2) as (rel2' & A2 & EQ).
  assert (rel2' = rel2) as ->.
  { apply (f_equal w_rels) in EQ. cbn in EQ. apply app_inj_tail in EQ as [_ EQ]. now symmetry. }
  clear EQ. rewrite E2. exists rel2, (set_rels (w_rels w ++ [rel2]) w4). split; [reflexivity|].
  assert (R1 : reachable rel1) by (eapply reach_add; [constructor|exact A1]).
  apply add_exact in A1; [|constructor]. apply add_exact in A2; [|exact R1]. rewrite new_rel_stored in A1.
  cbn [app weights_list] in A1, A2.
  assert (ST : Permutation (map fst (stored rel2)) (pairs ++ map (fun x => (snd x, fst x)) pairs)).
  { rewrite (Permutation_map fst A2), map_app, (Permutation_map fst A1), !lines3_fst by (rewrite !map_length; lia).
    rewrite combine_split1, combine_split2. apply Permutation_refl. }
  assert (RE : forall a b, related rel2 a b <-> In (a, b) pairs \/ In (b, a) pairs).
  { intros a b. transitivity (In (a, b) (map fst (stored rel2))).
    - split; [intros [q H]; apply in_map_iff; now exists (a, b, q)|]. intros H. apply in_map_iff in H as ([[a' b'] q] & [= <- <-] & H). now exists q.
    - rewrite (Permutation_in' eq_refl ST), in_app_iff. apply or_iff_compat_l. split.
      + intros H. apply in_map_iff in H as ([a' b'] & [= <- <-] & H). exact H.
      + intros H. apply in_map_iff. now exists (b, a). }
  split; [|split; [reflexivity|split; [|split; [|split]]]].
  - eexists. cbn [w_pops w3 w4 set_rels set_pops]. rewrite nth_error_set_nth, Nat.eqb_refl. cbn [w_pops w2 set_seeder]. rewrite Hp.
    split; [reflexivity|]. cbn [p_rels]. rewrite dget_dset. now rewrite keqb_refl.
  - split; [|split; [|split]].
    + intros a b H. apply RE. apply RE in H. tauto.
    + intros a b H. apply RE in H as [H|H]; apply Hm in H; tauto.
    + intros a H. apply RE in H as [H|H]; apply Hm in H as (_ & _ & H); congruence.
    + eapply Permutation_NoDup; [symmetry; exact ST|exact Nd].
  - intros Hlo a b q H. specialize (B1 Hlo). specialize (B2 Hlo). rewrite Forall_forall in B1, B2.
    apply (Permutation_in _ A2) in H. apply in_app_or in H as [H|H].
    + apply (Permutation_in _ A1), lines3_weight in H. auto.
    + apply lines3_weight in H. auto.
  - intros Hd. assert (P0 : (pr <= 0)%Q).
    { unfold pr. apply Qle_shift_div_r; [|now rewrite Qmult_0_l]. unfold Qlt. cbn. lia. }
    assert (E0 : pairs = []) by (unfold pairs; now rewrite (Hg0 P0)). rewrite E0 in ST. cbn in ST.
    apply Permutation_sym, Permutation_nil in ST. now apply map_eq_nil in ST.
  - intros Hd a b Ha Hb Hab. assert (P1 : (1 <= pr)%Q).
    { unfold pr. apply Qle_shift_div_l; [unfold Qlt; cbn; lia|now rewrite Qmult_1_l]. }
    apply RE. unfold pairs. rewrite (Hg1 P1).
    destruct (In_nth _ _ VNA Ha) as (i & Hi & <-). destruct (In_nth _ _ VNA Hb) as (j & Hj & <-). fold n in Hi, Hj.
    assert (i <> j) by congruence. destruct (Nat.lt_ge_cases i j) as [L|L]; [left|right]; apply in_map_iff;
      [exists (i, j)|exists (j, i)]; (split; [reflexivity|apply complete_all; lia]).
Qed.
